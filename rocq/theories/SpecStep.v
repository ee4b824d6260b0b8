(** * Vocabulary of the whole time step (C52, C53), exact arithmetic

    The stages of the MPS algorithm as relations between the particles before and after,
    written with sums over all particles, distances and extremal values; no function of
    the model is mentioned. *)
From Verif Require Export SpecR.
Open Scope R_scope.

(** looking for neighbours: particles outside the box become Ghost *)
Definition swept (d : domR) (ps ps' : list partR) : Prop :=
  Forall2 (fun p p' => (exists t l, p' = set_nbrs (set_type p t) l) /\
                       (active d p -> p_type p' = p_type p) /\ (~ active d p -> p_type p' = Ghost)) ps ps'.

(** prediction: gravity g and viscosity accelerate the fluid *)
Definition predicted (s : @settings Rnum) (g : vecR) (n0 lambda : R) (ps ps' : list partR) : Prop :=
  List.length ps' = List.length ps /\
  forall i p, nth_error ps i = Some p -> exists p', nth_error ps' i = Some p' /\
    p_type p' = p_type p /\ p_dens p' = p_dens p /\
    (p_type p <> Fluid -> p_vel p' = p_vel p /\ p_pos p' = p_pos p) /\
    (p_type p = Fluid ->
       p_vel p' = addR (p_vel p) (scaleR (s_dt s) (addR g (scaleR (s_nu s * (2 * IZR (s_dim s)) / (n0 * lambda)) (shear (s_reL s) ps i p)))) /\
       p_pos p' = addR (p_pos p) (scaleR (s_dt s) (p_vel p'))).

(** particle i (Fluid) bounces off particle j, their distance being d before the first
    collision of the step; k is the collision distance, e the restitution *)
Definition bumped (e k d : R) (i j : nat) (u u' : list partR) : Prop :=
  exists p q, nth_error u i = Some p /\ nth_error u j = Some q /\
    (p_pos p = p_pos q -> u' = u) /\
    (p_pos p <> p_pos q -> let n := unitR (p_pos p) (p_pos q) in
     exists vp vq a b alpha beta,
       u' = upd (upd u i (set_pos (set_vel p vp) (along (p_pos p) (- alpha) n))) j (set_pos (set_vel q vq) (along (p_pos q) beta n)) /\
       vp = along (p_vel p) a n /\ vq = along (p_vel q) b n /\
       (dotR (diffR (p_vel q) (p_vel p)) n < 0 -> dotR (diffR vq vp) n = - e * dotR (diffR (p_vel q) (p_vel p)) n) /\
       (0 <= dotR (diffR (p_vel q) (p_vel p)) n -> a = 0 /\ b = 0) /\
       (p_type q = Fluid -> p_dens p * a + p_dens q * b = 0) /\ (p_type q <> Fluid -> b = 0) /\
       0 <= alpha /\ 0 <= beta /\ alpha + beta = k - d /\
       (p_type q = Fluid -> p_dens p * alpha = p_dens q * beta) /\ (p_type q <> Fluid -> beta = 0)).
Fixpoint bumps (e k : R) (ps : list partR) (tr : list (nat * nat)) (u u' : list partR) : Prop :=
  match tr with
  | [] => u' = u
  | (i, j) :: tr => exists v d, (forall p q, nth_error ps i = Some p -> nth_error ps j = Some q -> d = euclid (p_pos p) (p_pos q)) /\
                      bumped e k d i j u v /\ bumps e k ps tr v u'
  end.
(** collisions: every close pair once, in some order *)
Definition collided (s : @settings Rnum) (ps ps' : list partR) : Prop :=
  exists tr, NoDup (map (fun e => (Nat.min (fst e) (snd e), Nat.max (fst e) (snd e))) tr) /\
    (forall i j, In (i, j) tr <-> exists p q, nth_error ps i = Some p /\ nth_error ps j = Some q /\ i <> j /\
       p_type p = Fluid /\ p_type q <> Ghost /\ (p_type q = Fluid -> (j < i)%nat) /\
       euclid (p_pos p) (p_pos q) < s_colDist s /\ euclid (p_pos p) (p_pos q) < s_reMax s) /\
    bumps (s_restitution s) (s_colDist s) ps tr ps ps'.

(** number densities, then pressures: the explicit law or the pressure Poisson equation *)
Definition counted (reN : R) (ps ps' : list partR) : Prop :=
  List.length ps' = List.length ps /\
  forall i p, nth_error ps i = Some p -> exists p', nth_error ps' i = Some p' /\
    p_type p' = p_type p /\ p_dens p' = p_dens p /\ p_vel p' = p_vel p /\ p_pos p' = p_pos p /\
    (p_type p = Ghost -> p_nd p' = 0) /\
    (p_type p <> Ghost -> p_nd p' = sum_others ps i (fun _ q => w_spec reN (euclid (p_pos p) (p_pos q)))).
Definition pressed (k : @calculator Rnum) (reMax : R) (ps : list partR) : Prop :=
  match k with
  | Explicit n0 c => forall p, In p ps -> p_press p = if (p_type p =? Ghost)%Z then 0 else Rmax 0 (c ^ 2 * p_dens p * ((p_nd p - n0) / n0))
  | Implicit det q => exists x : nat -> R, forall i p, nth_error ps i = Some p ->
      p_press p = Rmax 0 (x i) /\
      let inner := p_type p <> Ghost /\ p_type p <> DummyWall /\ ~ surface det reMax ps i p in
      (~ inner -> x i = 0) /\
      (inner ->
         sum_others ps i (fun j r => if (p_type r =? DummyWall)%Z then 0 else
           2 * IZR (q_dim q) / (q_n0L q * q_lambda q) * w_spec (q_reL q) (euclid (p_pos p) (p_pos r)) / p_dens p * (x i - x j))
         + q_compress q / q_dt q ^ 2 * x i
         = q_gamma q / q_dt q ^ 2 * ((p_nd p - q_n0N q) / q_n0N q))
  end.

(** m is the least pressure among particle i and those it interacts with *)
Definition least (re : R) (ps : list partR) (i : nat) (p : partR) (m : R) : Prop :=
  m <= p_press p /\ (forall j q, interacts re ps i p j q -> m <= p_press q) /\
  (m = p_press p \/ exists j q, interacts re ps i p j q /\ m = p_press q).
(** minus the pressure gradient over the density, with the minimum pressure m at particle i *)
Definition pressure_force (dim : Z) (n0 re m : R) (ps : list partR) (i : nat) (p : partR) : vecR :=
  scaleR (IZR dim / (n0 * p_dens p)) (sumv ps i (fun _ q => if (p_type q =? DummyWall)%Z then zeroR else
    scaleR ((p_press q - m) * w_spec re (euclid (p_pos p) (p_pos q)) / euclid (p_pos p) (p_pos q) ^ 2) (diffR (p_pos p) (p_pos q)))).
(** correction of velocities and positions *)
Definition corrected (s : @settings Rnum) (n0 : R) (ps ps' : list partR) : Prop :=
  List.length ps' = List.length ps /\
  forall i p, nth_error ps i = Some p -> exists p', nth_error ps' i = Some p' /\
    p_type p' = p_type p /\ p_dens p' = p_dens p /\ p_press p' = p_press p /\ p_nd p' = p_nd p /\
    (p_type p <> Fluid -> p_vel p' = p_vel p /\ p_pos p' = p_pos p) /\
    (p_type p = Fluid -> exists m, least (s_reG s) ps i p m /\
       let a := pressure_force (s_dim s) n0 (s_reG s) m ps i p in
       p_vel p' = addR (p_vel p) (scaleR (s_dt s) a) /\ p_pos p' = addR (p_pos p) (scaleR (s_dt s ^ 2) a)).

(** constants that make sense: the radius of the Laplacian is covered by the search, the
    reference values are positive, the time step is not zero *)
Definition sensible (k : @calculator Rnum) (reMax : R) : Prop :=
  match k with
  | Explicit n0 c => 0 < n0
  | Implicit det q => q_reL q <= reMax /\ 0 < q_n0N q /\ 0 < q_n0L q /\ 0 < q_lambda q /\ q_dt q <> 0
  end.

(** n0 and lambda are the reference values of a lattice with distance l0 and radius re *)
Definition reference (dim : Z) (l0 re n0 lambda : R) : Prop :=
  0 < n0 /\ 0 < lambda /\
  (re <= 5 * l0 -> forall L, lattice_part dim 4 L ->
     n0 = rsum (map (fun c => w_spec re (lattice_dist l0 c)) L) /\
     n0 * lambda = rsum (map (fun c => lattice_dist l0 c ^ 2 * w_spec re (lattice_dist l0 c)) L)).
(** the pressure calculation asked for by the settings *)
Definition configured (s : @settings Rnum) (k : @calculator Rnum) : Prop :=
  match k with
  | Explicit n0 c => s_method s = "Explicit"%string /\ c = s_c s /\ exists la, reference (s_dim s) (s_l0 s) (s_reN s) n0 la
  | Implicit det q => s_method s = "Implicit"%string /\
      q_asserts q = s_asserts s /\ q_dim q = s_dim s /\ q_dt q = s_dt s /\ q_gamma q = s_relax s /\ q_compress q = s_compress s /\
      q_reL q = s_reL s /\ q_reN q = s_reN s /\
      (exists la, reference (s_dim s) (s_l0 s) (s_reN s) (q_n0N q) la) /\ reference (s_dim s) (s_l0 s) (s_reL s) (q_n0L q) (q_lambda q) /\
      match det with
      | ByNumberDensity thr n0 => s_sd_dist s = false /\ thr = s_sd_nd s /\ exists la, reference (s_dim s) (s_l0 s) (s_reN s) n0 la
      | ByDistribution n0 l0 dr ndr => s_sd_dist s = true /\ l0 = s_l0 s /\ dr = s_sd_dist_thr s /\ ndr = s_sd_nd s /\ exists la, reference (s_dim s) (s_l0 s) (s_reN s) n0 la
      end
  end.
