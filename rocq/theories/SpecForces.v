(** * Vocabulary of the statements about viscosity and the balance of forces (C74, C75) *)
From Verif Require Export SpecR.
Open Scope R_scope.

(** the diffusion number of particle i: time step times 2 nu d / (n0 lambda) times its weight sum *)
Definition diffusion (s : @settings Rnum) (rv : @refValues Rnum) (ps : list partR) (i : nat) (p : partR) : R :=
  s_dt s * (s_nu s * (2 * IZR (s_dim s)) / (rv_n0 rv * rv_lambda rv)) * sum_others ps i (fun _ q => w_spec (s_reL s) (euclid (p_pos p) (p_pos q))).
(** parameters of the viscosity model that make sense *)
Definition viscous (s : @settings Rnum) (rv : @refValues Rnum) : Prop :=
  0 <= s_nu s /\ 0 <= s_dt s /\ (s_dim s = 2 \/ s_dim s = 3)%Z /\ 0 < rv_n0 rv /\ 0 < rv_lambda rv.
(** the rate at which the forces that turned the accelerations of [ps] into those of [ps'] work on
    the fluid *)
Definition power (ps ps' : list partR) : R :=
  rsum (map (fun k => match nth_error ps k, nth_error ps' k with
                      | Some p, Some p' => if (p_type p =? Fluid)%Z then p_dens p * dotR (p_vel p) (diffR (p_acc p') (p_acc p)) else 0
                      | _, _ => 0 end) (seq 0 (List.length ps))).
(** all fluid has the density rho *)
Definition uniform (rho : R) (ps : list partR) : Prop := forall p, In p ps -> p_type p = Fluid -> p_dens p = rho.
(** what is not fluid does not move (Ghosts aside) *)
Definition walls_rest (ps : list partR) : Prop := forall p, In p ps -> p_type p <> Fluid -> p_type p <> Ghost -> p_vel p = zeroR.

(** sum of the forces: densities times accelerations *)
Definition net_force (ps : list partR) : vecR := vsum (map (fun p => scaleR (p_dens p) (p_acc p)) ps).
Definition crossR (a b : vecR) : vecR :=
  @mkV Rnum (vy a * vz b - vz a * vy b) (vz a * vx b - vx a * vz b) (vx a * vy b - vy a * vx b).
Definition torque (ps : list partR) : vecR := vsum (map (fun p => scaleR (p_dens p) (crossR (p_pos p) (p_acc p))) ps).
Definition angular_momentum (ps : list partR) : vecR := vsum (map (fun p => scaleR (p_dens p) (crossR (p_pos p) (p_vel p))) ps).
