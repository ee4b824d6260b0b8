(** * Units of measurement and the origin of coordinates

    What it means to write the same problem down in other units, with another origin of
    the coordinates and of the time.  A choice of units is given by the measure of one
    old unit of length, time and mass in the new ones and by where the old origins lie.
    Every quantity is then converted by its physical dimension alone; nothing here
    refers to what the program does with it. *)
From Coq Require Import Reals.
From Verif Require Export NumR Sim.
Open Scope R_scope.

Record units := mkU {
  u_len : R; u_time : R; u_mass : R;
  u_origin : @vec Rnum;               (* new coordinates of the old origin *)
  u_epoch : R                         (* new reading of the old time 0 *)
}.

Definition proper_units (u : units) : Prop := 0 < u_len u /\ 0 < u_time u /\ 0 < u_mass u.

Section Units.
Variable u : units.
Local Notation L := (u_len u).
Local Notation T := (u_time u).
Local Notation M := (u_mass u).

(** dimensions: velocity L/T, acceleration L/T^2, density M/L^3, pressure M/(L T^2),
    kinematic viscosity L^2/T, compressibility L T^2/M *)
Definition k_vel : R := L / T.
Definition k_acc : R := L / (T * T).
Definition k_dens : R := M / (L * L * L).
Definition k_press : R := M / (L * (T * T)).
Definition k_visc : R := L * L / T.
Definition k_compr : R := L * (T * T) / M.

Definition u_scale (k : R) (x : @vec Rnum) : @vec Rnum := @mkV Rnum (k * vx x) (k * vy x) (k * vz x).
Definition u_pos (x : @vec Rnum) : @vec Rnum :=
  @mkV Rnum (L * vx x + vx (u_origin u)) (L * vy x + vy (u_origin u)) (L * vz x + vz (u_origin u)).
Definition u_clock (t : R) : R := T * t + u_epoch u.

Definition u_neighbor (nb : @neighbor Rnum) : @neighbor Rnum := @mkNb Rnum (nb_id nb) (L * nb_dist nb).

(** sourceTerm is never used by the program and keeps its value *)
Definition u_particle (p : @particle Rnum) : @particle Rnum :=
  @mkP Rnum (p_id p) (p_type p) (p_fluidType p) (u_pos (p_pos p)) (u_scale k_vel (p_vel p)) (u_scale k_acc (p_acc p))
      (k_press * p_press p) (p_nd p) (k_dens * p_dens p) (p_bc p) (p_src p) (k_press * p_minp p) (map u_neighbor (p_nbrs p)).

Definition u_domain (d : @domain Rnum) : @domain Rnum :=
  @mkDom Rnum (L * xMin d + vx (u_origin u)) (L * xMax d + vx (u_origin u))
              (L * yMin d + vy (u_origin u)) (L * yMax d + vy (u_origin u))
              (L * zMin d + vz (u_origin u)) (L * zMax d + vz (u_origin u))
              (L * xLength d) (L * yLength d) (L * zLength d).

Definition u_settings (s : @settings Rnum) : @settings Rnum :=
  @mkS Rnum (s_asserts s) (s_dim s) (L * s_l0 s) (T * s_dt s) (u_clock (s_endTime s)) (T * s_outputPeriod s) (s_cfl s)
      (u_domain (s_domain s)) (k_visc * s_nu s) (k_dens * s_rho0 s) (s_xyzInput s) (u_scale k_acc (s_gravity s)) (k_acc * s_gNorm s)
      (s_gAngle s) (s_sd_nd s) (s_sd_dist s) (s_sd_dist_thr s) (s_method s) (k_compr * s_compress s) (s_relax s)
      (k_vel * s_c s) (L * s_colDist s) (s_restitution s) (L * s_reN s) (L * s_reG s) (L * s_reL s) (L * s_reMax s)
      (s_particlesPath s) (s_vtkBinary s).

(** the objects the program builds: n0 is a pure number, lambda an area *)
Definition u_ref (r : @refValues Rnum) : @refValues Rnum := @mkRV Rnum (rv_n0 r) (L * L * rv_lambda r).

Definition u_bucket (b : @bucket Rnum) : @bucket Rnum :=
  @mkB Rnum (b_num b) (b_numX b) (b_numY b) (b_numZ b) (L * b_length b) (u_domain (b_domain b)) (b_next b) (b_first b) (b_last b).

Definition u_searcher (n : @searcher Rnum) : @searcher Rnum :=
  @mkNS Rnum (L * ns_re n) (u_domain (ns_domain n)) (u_bucket (ns_bucket n)).

Definition u_detector (d : @detector Rnum) : @detector Rnum :=
  match d with
  | ByNumberDensity thr n0 => @ByNumberDensity Rnum thr n0
  | ByDistribution n0 l0 dr nr => @ByDistribution Rnum n0 (L * l0) dr nr
  end.

Definition u_ppe (q : @ppe Rnum) : @ppe Rnum :=
  @mkPPE Rnum (q_asserts q) (q_dim q) (T * q_dt q) (q_gamma q) (k_compr * q_compress q) (q_n0N q) (q_n0L q)
         (L * L * q_lambda q) (L * q_reL q) (L * q_reN q).

Definition u_calculator (k : @calculator Rnum) : @calculator Rnum :=
  match k with
  | Implicit det q => Implicit (u_detector det) (u_ppe q)
  | Explicit n0 c => @Explicit Rnum n0 (k_vel * c)
  end.

(** the Courant number is a pure number *)
Definition u_mps (m : @mps Rnum) : @mps Rnum :=
  @mkM Rnum (u_settings (m_settings m)) (u_scale k_acc (m_gravity m)) (u_ref (m_rvN m)) (u_ref (m_rvG m)) (u_ref (m_rvL m))
       (map u_particle (m_ps m)) (u_calculator (m_calc m)) (u_searcher (m_ns m)) (m_courant m) (m_cflErrors m).

Definition u_output (o : @output Rnum) : @output Rnum := @mkO Rnum (o_number o) (o_step o) (u_clock (o_time o)) (u_mps (o_mps o)).

Definition u_sim (st : @sim Rnum) : @sim Rnum :=
  @mkSim Rnum (u_mps (si_mps st)) (u_clock (si_start st)) (u_clock (si_time st)) (u_clock (si_end st)) (T * si_dt st) (T * si_period st)
         (si_step st) (si_file st) (map u_output (si_out st)).

(** [S'] does to systems written in the new units what [S] does to those in the old
    ones.  An equation of the system may be of dimension 1/T^2 or a pressure; the
    unknowns are pressures. *)
Definition u_system (r : Z -> R) (ts : list (@triplet Rnum)) (b : list R) : list (@triplet Rnum) * list R :=
  (map (fun t => @mkT Rnum (t_row t) (t_col t) (r (t_row t) / k_press * t_val t)) ts,
   map (fun e => r (Z.of_nat (fst e)) * snd e) (combine (seq 0 (length b)) b)).
Definition u_solver (S S' : @solver Rnum) : Prop :=
  forall n ts b r, (forall i, r i = / (T * T) \/ r i = k_press) ->
    S' n (fst (u_system r ts b)) (snd (u_system r ts b)) = option_map (map (Rmult k_press)) (S n ts b).
End Units.

(** the same result in other units: normal ends are converted, every other outcome
    (undefined behaviour, failed assertion, exit, exception, no end) is the same *)
Definition converted {A B} (f : A -> B) (o : outcome A) : outcome B :=
  match o with
  | Ok a => Ok (f a)
  | Undef x => Undef x
  | AssertFail => AssertFail
  | Exit c => Exit c
  | Throw => Throw
  | Diverge => Diverge
  end.

(** ** The same problem at another place and another time, in any arithmetic *)
Section Shift.
Context {N : Num}.
Local Open Scope num_scope.
Variables (v : vec) (t : num).
Definition shift_particle (p : particle) : particle := set_pos p (vadd (p_pos p) v).
Definition shift_domain (d : domain) : domain :=
  mkDom (xMin d + vx v) (xMax d + vx v) (yMin d + vy v) (yMax d + vy v) (zMin d + vz v) (zMax d + vz v) (xLength d) (yLength d) (zLength d).
Definition shift_settings (s : settings) : settings :=
  mkS (s_asserts s) (s_dim s) (s_l0 s) (s_dt s) (s_endTime s + t) (s_outputPeriod s) (s_cfl s) (shift_domain (s_domain s)) (s_nu s) (s_rho0 s)
      (s_xyzInput s) (s_gravity s) (s_gNorm s) (s_gAngle s) (s_sd_nd s) (s_sd_dist s) (s_sd_dist_thr s) (s_method s) (s_compress s) (s_relax s) (s_c s)
      (s_colDist s) (s_restitution s) (s_reN s) (s_reG s) (s_reL s) (s_reMax s) (s_particlesPath s) (s_vtkBinary s).
Definition shift_bucket (b : bucket) : bucket :=
  mkB (b_num b) (b_numX b) (b_numY b) (b_numZ b) (b_length b) (shift_domain (b_domain b)) (b_next b) (b_first b) (b_last b).
Definition shift_searcher (n : searcher) : searcher := mkNS (ns_re n) (shift_domain (ns_domain n)) (shift_bucket (ns_bucket n)).
Definition shift_mps (m : mps) : mps :=
  mkM (shift_settings (m_settings m)) (m_gravity m) (m_rvN m) (m_rvG m) (m_rvL m) (map shift_particle (m_ps m)) (m_calc m) (shift_searcher (m_ns m))
      (m_courant m) (m_cflErrors m).
Definition shift_output (o : output) : output := mkO (o_number o) (o_step o) (o_time o + t) (shift_mps (o_mps o)).
Definition shift_sim (st : sim) : sim :=
  mkSim (shift_mps (si_mps st)) (si_start st + t) (si_time st + t) (si_end st + t) (si_dt st) (si_period st) (si_step st) (si_file st)
        (map shift_output (si_out st)).
End Shift.
