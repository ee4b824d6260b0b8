(** * Properties C65 and C66: units of measurement, place and time

    Vocabulary: [SpecUnits] (units: a choice of units of length, time and mass and of the
    origins; u_...: a quantity, record or state written in the new units; converted: the
    same outcome with the result converted; u_solver: the solver respects units;
    shift_...: the same at another place and time). *)
From Coq Require Import Reals Lra String.
From Verif Require Import SimCases GaussR UnitsR UnitsCases UnitsF StepCasesF.
Open Scope R_scope.
#[local] Remove Hints F64 : typeclass_instances.

(** C65: one time step in other units.  All outcomes are covered, not only normal ends. *)
Theorem C65_step u S S' (m : @mps Rnum) : proper_units u -> u_solver u S S' ->
  stepForward S' (u_mps u m) = converted (u_mps u) (stepForward S m).
Proof. intros PU US. exact (u_stepForward u PU S S' US m). Qed.
(** centimetres, milliseconds, grams, seen from (100, 50, 0), with an exact solver *)
Example C65_step_case : exists u (m m' : @mps Rnum), proper_units u /\ u_solver u gauss gauss /\ u_len u = 100 /\ u_time u = 1000 /\ u_mass u = 1000 /\
  m_ps m = duo /\ stepForward gauss m = Ok m' /\ stepForward gauss (u_mps u m) = Ok (u_mps u m').
Proof. exact units_case. Qed.
Print Assumptions C65_step.

(** what the factory builds *)
Theorem C65_create u fsin fcos pi (s : @settings Rnum) ps : proper_units u ->
  factoryCreate fsin fcos pi (u_settings u s) (map (u_particle u) ps) = converted (u_mps u) (factoryCreate fsin fcos pi s ps).
Proof. intros PU. exact (u_factoryCreate u PU fsin fcos pi s ps). Qed.
Example C65_create_case : exists u (m : @mps Rnum), proper_units u /\ u_len u = 100 /\ factoryCreate id id 3 set1 duo = Ok m /\
  factoryCreate id id 3 (u_settings u set1) (map (u_particle u) duo) = Ok (u_mps u m).
Proof. exact create_case. Qed.
Print Assumptions C65_create.

(** the whole run: number of steps, files and their times, everything in them *)
Theorem C65_run u S S' real clk fuel (st : @sim Rnum) : proper_units u -> u_solver u S S' ->
  run S' real clk fuel (u_sim u st) = converted (u_sim u) (run S real clk fuel st).
Proof. intros PU US. exact (u_run u PU S S' US real clk fuel st). Qed.
Example C65_run_case : exists u m st', proper_units u /\ u_solver u gauss gauss /\ u_len u = 100 /\ run gauss 0 tick 3 (trip m) = Ok st' /\
  run gauss 0 tick 3 (u_sim u (trip m)) = Ok (u_sim u st').
Proof. exact units_run_case. Qed.
Print Assumptions C65_run.

(** the solver's part: exact elimination respects any units *)
Theorem C65_solver u : proper_units u -> u_solver u gauss gauss.
Proof. exact (gauss_units u). Qed.
Example C65_solver_case : proper_units (mkU 100 1000 1000 (@mkV Rnum 100 50 0) 0) /\ exists x, gauss 1%nat [@mkT Rnum 0 0 2] [6] = Some x.
Proof. split; [unfold proper_units; simpl; lra|]. exact gauss_one. Qed.
Print Assumptions C65_solver.

(** C66: nothing depends on where the problem is placed, nor on what the clock shows,
    whatever the solver *)
Theorem C66_step v t S (m : @mps Rnum) : stepForward S (shift_mps v t m) = converted (shift_mps v t) (stepForward S m).
Proof. exact (C66_step_lemma v t S m). Qed.
Theorem C66_create v t fsin fcos pi (s : @settings Rnum) ps :
  factoryCreate fsin fcos pi (shift_settings v t s) (map (shift_particle v) ps) = converted (shift_mps v t) (factoryCreate fsin fcos pi s ps).
Proof. exact (C66_create_lemma v t fsin fcos pi s ps). Qed.
Theorem C66_run v t S real clk fuel (st : @sim Rnum) :
  run S real clk fuel (shift_sim v t st) = converted (shift_sim v t) (run S real clk fuel st).
Proof. exact (C66_run_lemma v t S real clk fuel st). Qed.
Example C66_case : exists m st', run no_solver 0 tick 3 (trip m) = Ok st' /\
  run no_solver 0 tick 3 (shift_sim (@mkV Rnum 3 (-2) 1) 7 (trip m)) = Ok (shift_sim (@mkV Rnum 3 (-2) 1) 7 st') /\ si_time st' = 1 + 3 * (1 / 100).
Proof. exact shift_case. Qed.
Print Assumptions C66_step.
Print Assumptions C66_create.
Print Assumptions C66_run.

(** in binary64 it does: two particles out of reach of each other become neighbours when
    the whole problem is moved by four metres *)
Theorem C66_binary64_refuted : exists (v : @vec F64) (m m1 m2 : @mps F64), sound m /\ numeric (m_ps m) /\
  @stepForward F64 solver0 m = Ok m1 /\ @stepForward F64 solver0 (@shift_mps F64 v c00 m) = Ok m2 /\
  map (fun p => List.length (p_nbrs p)) (m_ps m1) = [0; 0]%nat /\ map (fun p => List.length (p_nbrs p)) (m_ps m2) = [1; 1]%nat.
Proof. exact C66_refuted_lemma. Qed.
Print Assumptions C66_binary64_refuted.
