(** * Properties C15-C19, C22, C23, C50, C51: whole time steps

    Vocabulary: [Spec] (steps, sound, at_rest, retype, with_ps, limit_cfl, omap, sized),
    [SpecR] (ready, apart, shear, addR, scaleR, lone_steps, planar, ...). *)
From Coq Require Import Reals Lra.
From Verif Require Import StepFacts MotionR FallR GradientR RetypeFacts PlanarR TotalR SolverCases StepCasesF.
Open Scope R_scope.
#[local] Remove Hints F64 : typeclass_instances.

(** C15 (exact arithmetic).  The run may start at any moment, in particular when a
    particle becomes Ghost. *)
Theorem C15_nonfluid_never_move S n (m m' : @mps Rnum) i p p' : steps S n m m' ->
  nth_error (m_ps m) i = Some p -> nth_error (m_ps m') i = Some p' -> p_type p <> Fluid ->
  p_pos p' = p_pos p /\ p_vel p' = p_vel p.
Proof. exact (C15_lemma S n m m' i p p'). Qed.
Example C15_case : exists m m' p, steps no_solver 7 m m' /\ m_ps m = trio /\ nth_error (m_ps m) 2 = Some p /\ p_type p = Wall.
Proof. destruct (runs trio 7 trio_indexed trio_rest) as (m & m' & RD & _ & E & _ & _ & H). exists m, m'. eexists. rewrite E. split; [exact H|]. split; [reflexivity|]. split; reflexivity. Qed.
Print Assumptions C15_nonfluid_never_move.

(** C16 *)
Theorem C16_identity (N : Num) S n (m m' : mps) : steps S n m m' ->
  List.length (m_ps m') = List.length (m_ps m) /\
  forall i p, nth_error (m_ps m) i = Some p -> exists p', nth_error (m_ps m') i = Some p' /\
    p_id p' = p_id p /\ p_dens p' = p_dens p /\ p_fluidType p' = p_fluidType p /\
    (p_type p' = p_type p \/ p_type p' = Ghost) /\ (p_type p = Ghost -> p_type p' = Ghost).
Proof. exact (C16_lemma S n m m'). Qed.
Example C16_case : exists m m', @steps F64 solver0 1 m m' /\ m_ps m = cross.
Proof. destruct (cross_step "Implicit" (or_introl eq_refl)) as (m & m' & _ & _ & E & _ & _ & H). exists m, m'. exact (conj H E). Qed.
Print Assumptions C16_identity.

(** C17: no acceleration is left after a step ... *)
Theorem C17_acceleration_cleared (N : Num) S n (m m' : mps) : steps S n m m' -> at_rest (m_ps m) -> at_rest (m_ps m').
Proof. exact (C17_acc_lemma S n m m'). Qed.
Example C17_case : exists m m', @steps F64 solver0 1 m m' /\ at_rest (m_ps m).
Proof. destruct (cross_step "Explicit" (or_intror eq_refl)) as (m & m' & _ & (_ & R & _) & _ & _ & _ & H). exists m, m'. exact (conj H R). Qed.
Print Assumptions C17_acceleration_cleared.

(** ... so that the prediction stage moves the fluid by gravity and viscosity alone *)
Theorem C17_prediction (m : @mps Rnum) : ready m -> apart (m_ps m) ->
  exists ns ps1 ns' ps2, setNeighbors (m_ns m) (m_ps m) = Ok (ns, ps1) /\ stepMove m = Ok (ns', ps2) /\
    List.length ps2 = List.length ps1 /\
    let s := m_settings m in
    forall i p, nth_error ps1 i = Some p -> exists p', nth_error ps2 i = Some p' /\
      (p_type p <> Fluid -> p_type p' = p_type p /\ p_vel p' = p_vel p /\ p_pos p' = p_pos p) /\
      (p_type p = Fluid ->
         let visc := scaleR (s_nu s * (2 * IZR (s_dim s)) / (rv_n0 (m_rvL m) * rv_lambda (m_rvL m))) (shear (s_reL s) ps1 i p) in
         p_type p' = Fluid /\
         p_vel p' = addR (p_vel p) (scaleR (s_dt s) (addR (m_gravity m) visc)) /\
         p_pos p' = addR (p_pos p) (scaleR (s_dt s) (p_vel p'))).
Proof. exact (C17_prediction_lemma m). Qed.
Example C17_case_prediction : exists m : @mps Rnum, ready m /\ apart (m_ps m) /\ m_ps m = trio.
Proof. destruct (machine trio kex trio_indexed trio_rest) as (m & _ & RD & _ & E & _). exists m. rewrite E. exact (conj RD (conj trio_apart eq_refl)). Qed.
Print Assumptions C17_prediction.

(** C18 *)
Theorem C18_free_fall S i n (m m' : @mps Rnum) p : ready m -> nth_error (m_ps m) i = Some p -> p_dens p <> 0 -> p_type p = Fluid ->
  lone_steps S i n m m' ->
  let g := m_gravity m in let dt := s_dt (m_settings m) in
  exists p', nth_error (m_ps m') i = Some p' /\ p_type p' = Fluid /\
    p_vel p' = addR (p_vel p) (scaleR (INR n * dt) g) /\
    p_pos p' = addR (p_pos p) (addR (scaleR (INR n * dt) (p_vel p)) (scaleR (INR n * (INR n + 1) / 2 * dt ^ 2) g)).
Proof. exact (C18_lemma S i n m m' p). Qed.
Example C18_case : exists m m' p, ready m /\ nth_error (m_ps m) 0 = Some p /\ p_dens p <> 0 /\ p_type p = Fluid /\ lone_steps no_solver 0 1 m m'.
Proof.
  destruct solo_falls as (m & m' & RD & E & H). exists m, m'. eexists. rewrite E. split; [exact RD|]. split; [reflexivity|]. split; [simpl; lra|]. split; [reflexivity|exact H].
Qed.
Print Assumptions C18_free_fall.

(** C19 *)
Theorem C19_uniform_flow (s : @settings Rnum) rv rs ps v : listed rs ps -> apart ps -> s_reL s <= rs ->
  (forall p, In p ps -> p_type p <> Ghost -> p_vel p = v) -> @calViscosity Rnum s rv (s_reL s) ps = Ok ps.
Proof. exact (C19_uniform_lemma s rv rs ps v). Qed.
Example C19_case_uniform : exists v, listed (3/2) (pair_ 2 2) /\ apart (pair_ 2 2) /\ s_reL set1 <= 3/2 /\ forall p, In p (pair_ 2 2) -> p_type p <> Ghost -> p_vel p = v.
Proof. exists (@mkV Rnum 2 0 0). split; [apply pair_listed|]. split; [apply pair_apart|]. split; [simpl; lra|]. intros p [<-|[<-|[]]] _; reflexivity. Qed.
Print Assumptions C19_uniform_flow.

Theorem C19_momentum (s : @settings Rnum) rv rs ps : listed rs ps -> apart ps -> s_reL s <= rs ->
  (forall p, In p ps -> p_type p = Fluid \/ p_type p = Ghost) ->
  exists ps', @calViscosity Rnum s rv (s_reL s) ps = Ok ps' /\ vsum (map p_acc ps') = vsum (map p_acc ps).
Proof. exact (C19_momentum_lemma s rv rs ps). Qed.
Example C19_case : listed (3/2) duo /\ apart duo /\ s_reL set1 <= 3/2 /\ forall p, In p duo -> p_type p = Fluid \/ p_type p = Ghost.
Proof. split; [apply duo_listed|]. split; [apply duo_apart|]. split; [simpl; lra|]. intros p [<-|[<-|[]]]; left; reflexivity. Qed.
Print Assumptions C19_momentum.

(** C22 *)
Theorem C22_courant_number (s : @settings Rnum) (ps : list partR) : 0 < s_l0 s -> 0 <= s_dt s ->
  let '(c, err) := calCourant s ps in
  ((forall p, In p ps -> p_type p <> Fluid) -> c = 0) /\
  (forall p, In p ps -> p_type p = Fluid -> sqrt (dotR (p_vel p) (p_vel p)) * s_dt s / s_l0 s <= c) /\
  ((exists p, In p ps /\ p_type p = Fluid) -> exists p, In p ps /\ p_type p = Fluid /\ c = sqrt (dotR (p_vel p) (p_vel p)) * s_dt s / s_l0 s) /\
  (err = true <-> s_cfl s < c).
Proof. exact (C22_lemma s ps). Qed.
Example C22_case : 0 < s_l0 set1 /\ 0 <= s_dt set1 /\ exists p, In p trio /\ p_type p = Fluid.
Proof. split; [simpl; lra|]. split; [simpl; lra|]. eexists. split; [left; reflexivity|reflexivity]. Qed.
Print Assumptions C22_courant_number.

(** the reported value is that of the particles as the step leaves them, and one message is
    printed if it exceeds the limit *)
Theorem C22_courant_reported (N : Num) S (m m' : mps) : stepForward S m = Ok m' -> m_courant m' = fst (calCourant (m_settings m) (m_ps m')) /\
  m_cflErrors m' = if nlt (s_cfl (m_settings m)) (m_courant m') then Datatypes.S (m_cflErrors m) else m_cflErrors m.
Proof. exact (C22_reported S m m'). Qed.
(* hypotheses: C16_case *)
Print Assumptions C22_courant_reported.

(** but in doubles a particle whose velocity is NaN goes unnoticed *)
Theorem C22_nan_unnoticed (s : @settings F64) (l l' : list (@particle F64)) p :
  is_nan (@vx F64 (p_vel p)) = true \/ is_nan (@vy F64 (p_vel p)) = true \/ is_nan (@vz F64 (p_vel p)) = true ->
  @calCourant F64 s (l ++ p :: l') = @calCourant F64 s (l ++ l').
Proof. exact (C22_nan_lemma s l l' p). Qed.
Example C22_case_nan : exists p : @particle F64, p_type p = Fluid /\ is_nan (@vx F64 (p_vel p)) = true.
Proof. exists (@newParticle F64 0 Fluid (@vzero F64) (@mkV F64 B754_nan (@nofZ F64 0) (@nofZ F64 0)) (@nofZ F64 1000) 0). split; reflexivity. Qed.
Print Assumptions C22_nan_unnoticed.

(** another Courant limit changes nothing but the number of messages *)
Theorem C22_limit_only_warns (N : Num) S n (m m' : mps) limit k : steps S n m m' -> exists k', steps S n (limit_cfl m limit k) (limit_cfl m' limit k').
Proof. exact (C22_limit_steps S n m m' limit k). Qed.
(* hypotheses: C16_case *)
Print Assumptions C22_limit_only_warns.

(** C23 *)
Theorem C23_planar S n (m m' : @mps Rnum) : steps S n m m' -> sound m -> vz (m_gravity m) = 0 -> planar (m_ps m) -> planar (m_ps m').
Proof. exact (C23_lemma S n m m'). Qed.
Example C23_case : exists m m', steps no_solver 5 m m' /\ sound m /\ vz (m_gravity m) = 0 /\ planar (m_ps m).
Proof.
  destruct (runs trio 5 trio_indexed trio_rest) as (m & m' & RD & _ & E & EG & _ & H). exists m, m'. rewrite E, EG. split; [exact H|]. split; [apply RD|]. split; [reflexivity|].
  intros p [<-|[<-|[<-|[]]]]; split; reflexivity.
Qed.
Print Assumptions C23_planar.

(** C50: a step with unrecognised type codes is the step with those replaced by Wall,
    whatever its outcome *)
Theorem C50_unrecognised_types (N : Num) S (m : mps) :
  stepForward S (with_ps m (map retype (m_ps m))) = omap (fun m' => with_ps m' (map retype (m_ps m'))) (stepForward S m).
Proof. exact (C50_step_lemma S m). Qed.
Print Assumptions C50_unrecognised_types.
Theorem C50_runs (N : Num) S n (m m' : mps) : steps S n m m' -> steps S n (with_ps m (map retype (m_ps m))) (with_ps m' (map retype (m_ps m'))).
Proof. exact (C50_lemma S n m m'). Qed.
Example C50_case : exists m m' p, steps no_solver 3 m m' /\ In p (m_ps m) /\ p_type p = 9%Z /\ p_type (retype p) = Wall.
Proof.
  destruct (runs [at3 0 9 4 5 0 []] 3) as (m & m' & _ & _ & E & _ & _ & H).
  - intros [|[|i]] p H; simpl in H; inv H; reflexivity.
  - intros p [<-|[]]; reflexivity.
  - exists m, m'. eexists. rewrite E. split; [exact H|]. split; [left; reflexivity|]. split; reflexivity.
Qed.
Print Assumptions C50_runs.

(** C51: a step completes, or stops at an assert (only in a build that has them), or ends the
    program after a solver failure (only with the implicit method) *)
Theorem C51_step_total_exact S (m : @mps Rnum) : ready m -> sized S ->
  (exists m', stepForward S m = Ok m') \/
  (s_asserts (m_settings m) || match m_calc m with Implicit _ q => q_asserts q | Explicit _ _ => false end = true /\ stepForward S m = AssertFail) \/
  ((exists det q, m_calc m = Implicit det q) /\ (exists n ts b, S n ts b = None) /\ stepForward S m = Exit (-1)).
Proof. exact (C51_exact_lemma S m). Qed.
Example C51_case : exists m : @mps Rnum, ready m /\ sized no_solver /\ m_calc m = Implicit det0 ppe1 /\ m_ps m = trio.
Proof. destruct (machine trio (Implicit det0 ppe1) trio_indexed trio_rest) as (m & _ & RD & _ & E & _ & K). exists m. exact (conj RD (conj no_solver_sized (conj K E))). Qed.
Print Assumptions C51_step_total_exact.

(** without asserts, and with a solver that does not fail, runs of any length complete *)
Theorem C51_runs_complete S n (m : @mps Rnum) : ready m -> sized S ->
  s_asserts (m_settings m) = false -> (forall det q, m_calc m = Implicit det q -> q_asserts q = false /\ forall k ts b, S k ts b <> None) ->
  exists m', steps S n m m'.
Proof. exact (C51_run_lemma S n m). Qed.
Example C51_case_runs : exists m : @mps Rnum, ready m /\ sized no_solver /\ s_asserts (m_settings m) = false /\
  (forall det q, m_calc m = Implicit det q -> q_asserts q = false /\ forall k ts b, no_solver k ts b <> None).
Proof.
  destruct (machine trio kex trio_indexed trio_rest) as (m & _ & RD & ES & E & _ & K). exists m. split; [exact RD|]. split; [exact no_solver_sized|].
  split; [now rewrite ES|]. intros det q H. rewrite K in H. discriminate.
Qed.
Print Assumptions C51_runs_complete.

(** in doubles the only further possibility is a NaN coordinate at one of the three
    neighbour searches of the step *)
Theorem C51_step_safe_binary64 S (m : @mps F64) : sound m -> sized S -> radiusF (s_reMax (m_settings m)) -> proper_domainF (s_domain (m_settings m)) ->
  ((exists m', stepForward S m = Ok m') \/
   (s_asserts (m_settings m) || match m_calc m with Implicit _ q => q_asserts q | Explicit _ _ => false end = true /\ stepForward S m = AssertFail) \/
   ((exists det q, m_calc m = Implicit det q) /\ (exists n ts b, S n ts b = None) /\ stepForward S m = Exit (-1))) \/
  exists ns ps, ((ns = m_ns m /\ ps = m_ps m) \/ stepMove m = Ok (ns, ps) \/ exists ns0 ps0, stepMove m = Ok (ns0, ps0) /\ stepCollide m ns0 ps0 = Ok (ns, ps)) /\ ~ numeric ps.
Proof. exact (C51_binary64_lemma S m). Qed.
Example C51_case_binary64 : exists m : @mps F64, sound m /\ sized solver0 /\ radiusF (s_reMax (m_settings m)) /\ proper_domainF (s_domain (m_settings m)) /\ numeric (m_ps m).
Proof.
  destruct (cross_step "Implicit" (or_introl eq_refl)) as (m & m' & _ & SD & E & ES & _ & _). exists m. rewrite E, ES. split; [exact SD|]. split; [exact solver0_sized|].
  split; [exact re31_radius|]. split; [exact dam_proper|exact cross_numeric].
Qed.
Print Assumptions C51_step_safe_binary64.
