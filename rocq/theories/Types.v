(** * Particles, domain and settings *)
From Verif Require Export Num.
From Coq Require Export String.
Open Scope Z_scope.
Open Scope list_scope.

(** ParticleType, src/particle.hpp:11-16.  It is an [enum class] over int and the
    loaders static_cast arbitrary ints to it (prof.cpp:35, csv.cpp:35, vtu.cpp:124),
    so a type is modelled as the int itself. *)
Definition Ghost : Z := 0.
Definition Fluid : Z := 1.
Definition Wall : Z := 2.
Definition DummyWall : Z := 3.

(** FluidState, src/particle.hpp:21-27 (never cast from an int). *)
Inductive fluid_state := Ignored | FreeSurface | SubFreeSurface | Inner | Splash.
Definition fs_code (b : fluid_state) : Z :=
  match b with Ignored => 0 | FreeSurface => 1 | SubFreeSurface => 2 | Inner => 3 | Splash => 4 end.
Definition fs_eqb (a b : fluid_state) : bool := fs_code a =? fs_code b.

Section Types.
Context {N : Num}.
Local Open Scope num_scope.

(** Neighbor, src/particle.hpp:32-42 *)
Record neighbor := mkNb { nb_id : Z; nb_dist : num }.

(** Particle, src/particle.hpp:47-87 *)
Record particle := mkP {
  p_id : Z;
  p_type : Z;
  p_fluidType : Z;
  p_pos : vec;
  p_vel : vec;
  p_acc : vec;
  p_press : num;
  p_nd : num;                (* numberDensity *)
  p_dens : num;              (* density *)
  p_bc : fluid_state;        (* boundaryCondition *)
  p_src : num;               (* sourceTerm, never used by the code *)
  p_minp : num;              (* minimumPressure *)
  p_nbrs : list neighbor
}.

(** Particle::Particle, src/particle.cpp:3-10, with the default member
    initialisers of src/particle.hpp:52-64. *)
Definition newParticle (id type : Z) (pos vel : vec) (density : num) (fluidType : Z) : particle :=
  mkP id type fluidType pos vel vzero #0 #0 density Ignored #0 #0 [].

Definition set_type (p : particle) (t : Z) : particle :=
  mkP (p_id p) t (p_fluidType p) (p_pos p) (p_vel p) (p_acc p) (p_press p) (p_nd p) (p_dens p) (p_bc p) (p_src p) (p_minp p) (p_nbrs p).
Definition set_pos (p : particle) (x : vec) : particle :=
  mkP (p_id p) (p_type p) (p_fluidType p) x (p_vel p) (p_acc p) (p_press p) (p_nd p) (p_dens p) (p_bc p) (p_src p) (p_minp p) (p_nbrs p).
Definition set_vel (p : particle) (v : vec) : particle :=
  mkP (p_id p) (p_type p) (p_fluidType p) (p_pos p) v (p_acc p) (p_press p) (p_nd p) (p_dens p) (p_bc p) (p_src p) (p_minp p) (p_nbrs p).
Definition set_acc (p : particle) (a : vec) : particle :=
  mkP (p_id p) (p_type p) (p_fluidType p) (p_pos p) (p_vel p) a (p_press p) (p_nd p) (p_dens p) (p_bc p) (p_src p) (p_minp p) (p_nbrs p).
Definition set_press (p : particle) (x : num) : particle :=
  mkP (p_id p) (p_type p) (p_fluidType p) (p_pos p) (p_vel p) (p_acc p) x (p_nd p) (p_dens p) (p_bc p) (p_src p) (p_minp p) (p_nbrs p).
Definition set_nd (p : particle) (x : num) : particle :=
  mkP (p_id p) (p_type p) (p_fluidType p) (p_pos p) (p_vel p) (p_acc p) (p_press p) x (p_dens p) (p_bc p) (p_src p) (p_minp p) (p_nbrs p).
Definition set_bc (p : particle) (b : fluid_state) : particle :=
  mkP (p_id p) (p_type p) (p_fluidType p) (p_pos p) (p_vel p) (p_acc p) (p_press p) (p_nd p) (p_dens p) b (p_src p) (p_minp p) (p_nbrs p).
Definition set_minp (p : particle) (x : num) : particle :=
  mkP (p_id p) (p_type p) (p_fluidType p) (p_pos p) (p_vel p) (p_acc p) (p_press p) (p_nd p) (p_dens p) (p_bc p) (p_src p) x (p_nbrs p).
Definition set_nbrs (p : particle) (l : list neighbor) : particle :=
  mkP (p_id p) (p_type p) (p_fluidType p) (p_pos p) (p_vel p) (p_acc p) (p_press p) (p_nd p) (p_dens p) (p_bc p) (p_src p) (p_minp p) l.

Definition is_type (p : particle) (t : Z) : bool := p_type p =? t.

(** Particle::inverseDensity, src/particle.cpp:12-23 *)
Definition inverseDensity (p : particle) : num :=
  if is_type p Fluid then #1 / p_dens p else #0.

(** Particles::add, src/particles.cpp:26-31 *)
Definition add_particle (dbg : bool) (ps : list particle) (p : particle) : outcome (list particle) :=
  _ <- cassert dbg (p_id p =? Z.of_nat (List.length ps)) ;; Ok (ps ++ [p]).

(** Domain, src/domain.hpp:8-18 *)
Record domain := mkDom {
  xMin : num; xMax : num; yMin : num; yMax : num; zMin : num; zMax : num;
  xLength : num; yLength : num; zLength : num
}.

(** Settings, src/settings.hpp:15-65.  [s_asserts] is not a setting: it says whether
    the program was built with assertions (CMake's default build type) or with
    NDEBUG (Release). *)
Record settings := mkS {
  s_asserts : bool;
  s_dim : Z;
  s_l0 : num;                       (* particleDistance *)
  s_dt : num;
  s_endTime : num;
  s_outputPeriod : num;
  s_cfl : num;
  s_domain : domain;
  s_nu : num;                       (* kinematicViscosity *)
  s_rho0 : num;                     (* defaultDensity *)
  s_xyzInput : bool;
  s_gravity : vec;
  s_gNorm : num;
  s_gAngle : num;
  s_sd_nd : num;                    (* surfaceDetection_numberDensity_threshold *)
  s_sd_dist : bool;                 (* surfaceDetection_particleDistribution *)
  s_sd_dist_thr : num;
  s_method : string;                (* pressureCalculationMethod *)
  s_compress : num;
  s_relax : num;
  s_c : num;                        (* soundSpeed *)
  s_colDist : num;
  s_restitution : num;
  s_reN : num;                      (* re_forNumberDensity *)
  s_reG : num;                      (* re_forGradient *)
  s_reL : num;                      (* re_forLaplacian *)
  s_reMax : num;
  s_particlesPath : string;
  s_vtkBinary : bool
}.
End Types.
