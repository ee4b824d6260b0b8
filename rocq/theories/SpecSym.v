(** * The same physical problem, numbered or oriented differently (C69, C70) *)
From Verif Require Export SpecStep.
Open Scope R_scope.

(** f is a rigid motion of space and L its linear part: f x - f y = L (x - y), lengths and
    angles are kept *)
Definition rigid (f L : vecR -> vecR) : Prop :=
  (forall x y, diffR (f x) (f y) = L (diffR x y)) /\
  (forall a b, L (addR a b) = addR (L a) (L b)) /\ (forall k a, L (scaleR k a) = scaleR k (L a)) /\
  (forall a b, dotR (L a) (L b) = dotR a b).
(** the axes are mapped to axes: mirror images and turns by right angles *)
Definition greatest (a : vecR) : R := Rmax (Rmax (Rabs (vx a)) (Rabs (vy a))) (Rabs (vz a)).
Definition axial (L : vecR -> vecR) : Prop := forall a, greatest (L a) = greatest a.

(** particle number sigma i of qs is particle i of ps, moved by f *)
Definition twin (f L : vecR -> vecR) (sigma : nat -> nat) (ps qs : list partR) : Prop :=
  List.length qs = List.length ps /\
  (forall i j, (i < List.length ps)%nat -> (j < List.length ps)%nat -> sigma i = sigma j -> i = j) /\
  forall i p, nth_error ps i = Some p -> exists q, nth_error qs (sigma i) = Some q /\
    p_type q = p_type p /\ p_dens q = p_dens p /\ p_pos q = f (p_pos p) /\ p_vel q = L (p_vel p).
(** and has the same number density and pressure *)
Definition twin_press (sigma : nat -> nat) (ps qs : list partR) : Prop :=
  forall i p q, nth_error ps i = Some p -> nth_error qs (sigma i) = Some q -> p_nd q = p_nd p /\ p_press q = p_press p.

(** the same settings with another domain *)
Definition with_domain (s : @settings Rnum) (d : domR) : @settings Rnum :=
  @mkS Rnum (s_asserts s) (s_dim s) (s_l0 s) (s_dt s) (s_endTime s) (s_outputPeriod s) (s_cfl s)
      d (s_nu s) (s_rho0 s) (s_xyzInput s) (s_gravity s) (s_gNorm s)
      (s_gAngle s) (s_sd_nd s) (s_sd_dist s) (s_sd_dist_thr s) (s_method s) (s_compress s) (s_relax s)
      (s_c s) (s_colDist s) (s_restitution s) (s_reN s) (s_reG s) (s_reL s) (s_reMax s)
      (s_particlesPath s) (s_vtkBinary s).
(** m2 is m1 with the problem moved by f and renumbered by sigma *)
Definition moved (f L : vecR -> vecR) (sigma : nat -> nat) (m1 m2 : @mps Rnum) : Prop :=
  twin f L sigma (m_ps m1) (m_ps m2) /\ m_settings m2 = with_domain (m_settings m1) (s_domain (m_settings m2)) /\
  m_gravity m2 = L (m_gravity m1) /\ m_calc m2 = m_calc m1.

(** the surface is detected by the number density alone, or not at all *)
Definition plain_surface (k : @calculator Rnum) : Prop :=
  match k with Implicit (ByDistribution _ _ _ _) _ => False | _ => True end.
Definition positive_compress (k : @calculator Rnum) : Prop :=
  match k with Implicit _ q => 0 < q_compress q /\ (0 <= q_dim q)%Z | _ => True end.

(** Fluid particle i touches particle j *)
Definition contact (s : @settings Rnum) (ps : list partR) (i j : nat) : Prop :=
  exists p q, nth_error ps i = Some p /\ nth_error ps j = Some q /\ i <> j /\ p_type p = Fluid /\ p_type q <> Ghost /\
    euclid (p_pos p) (p_pos q) < s_colDist s /\ euclid (p_pos p) (p_pos q) < s_reMax s.
(** no two particles at the same place, when the step begins and when pressures are
    computed; no Fluid particle collides with two others *)
Definition regular (m : @mps Rnum) : Prop :=
  apart (m_ps m) /\
  (forall n1 b n2 b1 i j k, stepMove m = Ok (n1, b) -> setNeighbors n1 b = Ok (n2, b1) -> contact (m_settings m) b1 i j -> contact (m_settings m) b1 i k -> j = k) /\
  (forall n1 b n2 c n3 c1, stepMove m = Ok (n1, b) -> stepCollide m n1 b = Ok (n2, c) -> setNeighbors n2 c = Ok (n3, c1) -> apart c1).

(** the domain of m2 is that of m1, moved; or it contains it, and nobody leaves that of m1 in
    the step; or nobody leaves in either step *)
Definition same_losses (f : vecR -> vecR) (m1 m1' m2 m2' : @mps Rnum) : Prop :=
  let d1 := s_domain (m_settings m1) in let d2 := s_domain (m_settings m2) in
  (forall x, in_box d1 x <-> in_box d2 (f x)) \/
  ((forall x, in_box d1 x -> in_box d2 (f x)) /\ map p_type (m_ps m1') = map p_type (m_ps m1)) \/
  (map p_type (m_ps m1') = map p_type (m_ps m1) /\ map p_type (m_ps m2') = map p_type (m_ps m2)).

(** particle number sigma i of qs is particle i of ps; in any arithmetic *)
Definition renumbered {N : Num} (sigma : nat -> nat) (ps qs : list particle) : Prop :=
  List.length qs = List.length ps /\
  (forall i j, (i < List.length ps)%nat -> (j < List.length ps)%nat -> sigma i = sigma j -> i = j) /\
  forall i p, nth_error ps i = Some p -> exists q, nth_error qs (sigma i) = Some q /\
    p_type q = p_type p /\ p_dens q = p_dens p /\ p_pos q = p_pos p /\ p_vel q = p_vel p.
