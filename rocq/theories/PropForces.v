(** * Properties C74, C75: viscosity and the balance of forces

    Vocabulary: [SpecForces] (viscous, diffusion, power, uniform, walls_rest, net_force, torque,
    angular_momentum), [SpecR] (listed, apart, momentum, mass_centre, fluid_energy, dotR). *)
From Coq Require Import Reals Lra.
From Verif Require Import ViscosityR StageCases ForcesCases SpecForces.
Open Scope R_scope.
#[local] Remove Hints F64 : typeclass_instances.

(** C74: in a fluid of one density the viscous forces never do positive work *)
Theorem C74_power (s : @settings Rnum) rv rs rho ps ps' : viscous s rv -> listed rs ps -> apart ps -> s_reL s <= rs ->
  walls_rest ps -> 0 <= rho -> uniform rho ps -> @calViscosity Rnum s rv (s_reL s) ps = Ok ps' -> power ps ps' <= 0.
Proof. exact (visc_power s rv rs rho ps ps'). Qed.
Print Assumptions C74_power.

(** C74: where the diffusion number is at most 1, no component of the velocity in any direction
    leaves the range of the particle and its neighbours; the density plays no role *)
Theorem C74_no_new_extremes (s : @settings Rnum) rv rs ps : viscous s rv -> listed rs ps -> apart ps -> s_reL s <= rs -> at_rest ps ->
  exists ps1, @calViscosity Rnum s rv (s_reL s) ps = Ok ps1 /\ forall i p, nth_error ps i = Some p -> p_type p = Fluid -> diffusion s rv ps i p <= 1 ->
  exists p2, nth_error (moveParticle s ps1) i = Some p2 /\ forall u (c : R), dotR u (p_vel p) <= c ->
    (forall j q, nth_error ps j = Some q -> p_type q <> Ghost -> euclid (p_pos p) (p_pos q) < s_reL s -> dotR u (p_vel q) <= c) -> dotR u (p_vel p2) <= c.
Proof. exact (visc_bounded s rv rs ps). Qed.
Print Assumptions C74_no_new_extremes.

(** C74: if that holds everywhere, the viscosity stage does not increase the kinetic energy *)
Theorem C74_energy (s : @settings Rnum) rv rs rho ps : viscous s rv -> listed rs ps -> apart ps -> s_reL s <= rs -> at_rest ps ->
  walls_rest ps -> 0 <= rho -> uniform rho ps -> (forall i p, nth_error ps i = Some p -> p_type p = Fluid -> diffusion s rv ps i p <= 1) ->
  exists ps1, @calViscosity Rnum s rv (s_reL s) ps = Ok ps1 /\ fluid_energy (moveParticle s ps1) <= fluid_energy ps.
Proof. exact (visc_energy s rv rs rho ps). Qed.
Print Assumptions C74_energy.
Example C74_case : viscous set1 rv1 /\ listed (3/2) trio /\ apart trio /\ s_reL set1 <= 3/2 /\ at_rest trio /\ walls_rest trio /\ uniform 1000 trio /\
  (forall i p, nth_error trio i = Some p -> p_type p = Fluid -> diffusion set1 rv1 trio i p <= 1) /\
  exists p q, In p trio /\ In q trio /\ p_type p = Fluid /\ p_type q = Fluid /\ p_vel p <> p_vel q.
Proof.
  split; [exact set1_viscous|]. split; [exact trio_listed|]. split; [exact trio_apart|]. split; [simpl; lra|]. split; [exact trio_rest|].
  split; [exact trio_walls_rest|]. split; [exact trio_uniform|]. split; [exact trio_diffusion|].
  do 2 eexists. split; [left; reflexivity|]. split; [right; left; reflexivity|]. split; [reflexivity|]. split; [reflexivity|].
  intros X. apply (f_equal vx) in X. simpl in X. lra.
Qed.

(** C74: the limit 1 cannot be raised *)
Theorem C74_unstable_refuted (c : R) : 1 < c -> exists (s : @settings Rnum) rv ps ps1,
  viscous s rv /\ listed (3/2) ps /\ apart ps /\ s_reL s <= 3/2 /\ at_rest ps /\ walls_rest ps /\ uniform 1000 ps /\
  (forall i p, nth_error ps i = Some p -> diffusion s rv ps i p = c) /\
  @calViscosity Rnum s rv (s_reL s) ps = Ok ps1 /\ fluid_energy ps < fluid_energy (moveParticle s ps1).
Proof. exact (couple_unstable c). Qed.
Print Assumptions C74_unstable_refuted.

(** C74, C75: with two densities the viscous forces feed energy and momentum into the fluid,
    however small the time step *)
Theorem C74_densities_refuted : exists (s : @settings Rnum) rv ps ps1,
  viscous s rv /\ listed (3/2) ps /\ apart ps /\ s_reL s <= 3/2 /\ at_rest ps /\ (forall p, In p ps -> p_type p = Fluid /\ 0 < p_dens p) /\
  (forall i p, nth_error ps i = Some p -> diffusion s rv ps i p <= 1/100) /\
  @calViscosity Rnum s rv (s_reL s) ps = Ok ps1 /\ 0 < power ps ps1 /\ net_force ps1 <> zeroR /\
  fluid_energy ps < fluid_energy (moveParticle s ps1) /\ momentum (moveParticle s ps1) <> momentum ps.
Proof. exact couple_densities. Qed.
Print Assumptions C74_densities_refuted.

(** C75: the viscous forces of a fluid of one density have no resultant *)
Theorem C75_viscosity_balanced (s : @settings Rnum) rv rs rho ps : listed rs ps -> apart ps -> s_reL s <= rs -> at_rest ps ->
  (forall p, In p ps -> p_type p = Fluid /\ p_dens p = rho) ->
  exists ps1, @calViscosity Rnum s rv (s_reL s) ps = Ok ps1 /\ net_force ps1 = zeroR /\ momentum (moveParticle s ps1) = momentum ps.
Proof. exact (visc_balanced s rv rs rho ps). Qed.
Example C75_case : listed (3/2) duo /\ apart duo /\ s_reL set1 <= 3/2 /\ at_rest duo /\ forall p, In p duo -> p_type p = Fluid /\ p_dens p = 1000.
Proof. split; [apply duo_listed|]. split; [apply duo_apart|]. split; [simpl; lra|]. split; [apply duo_rest|]. intros p [<-|[<-|[]]]; split; reflexivity. Qed.
Print Assumptions C75_viscosity_balanced.

(** C75: but they have a moment *)
Theorem C75_viscosity_torque_refuted : exists (s : @settings Rnum) rv ps ps1,
  viscous s rv /\ listed (3/2) ps /\ apart ps /\ s_reL s <= 3/2 /\ at_rest ps /\ uniform 1000 ps /\ (forall p, In p ps -> p_type p = Fluid) /\
  (forall i p, nth_error ps i = Some p -> diffusion s rv ps i p <= 1/100) /\
  @calViscosity Rnum s rv (s_reL s) ps = Ok ps1 /\ torque ps1 <> zeroR.
Proof. exact couple_torque. Qed.
Print Assumptions C75_viscosity_torque_refuted.

(** C75: the pressure forces have a resultant *)
Theorem C75_pressure_refuted : exists (s : @settings Rnum) rv ps ps1 ps2,
  listed (3/2) ps /\ indexed ps /\ apart ps /\ at_rest ps /\ s_reG s <= 3/2 /\ 0 < rv_n0 rv /\ uniform 1000 ps /\
  (forall p, In p ps -> p_type p = Fluid /\ 0 <= p_press p) /\
  setMinimumPressure (s_reG s) ps = Ok ps1 /\ calPressureGradient s rv (s_reG s) ps1 = Ok ps2 /\
  momentum (moveParticleUsingPressureGradient s ps2) <> momentum ps.
Proof. exact couple_pressure. Qed.
Print Assumptions C75_pressure_refuted.

(** C75: collisions keep momentum and centre of mass (C12) but not the angular momentum *)
Theorem C75_collision_turns_refuted : exists (s : @settings Rnum) ps ps',
  listed (3/2) ps /\ indexed ps /\ apart ps /\ uniform 1000 ps /\ (forall p, In p ps -> p_type p = Fluid) /\
  collision s ps = Ok ps' /\ momentum ps' = momentum ps /\ mass_centre ps' = mass_centre ps /\ angular_momentum ps' <> angular_momentum ps.
Proof. exact couple_collision. Qed.
Print Assumptions C75_collision_turns_refuted.
