(** * Vocabulary of the statements about exact arithmetic

    Definitions used to state properties; they mention the data types of the model
    (particle, domain, vec) but none of its functions, except [ready], which says how
    a simulator object was built. *)
From Verif Require Export Spec NumR.
From Coq Require Export Lra.
Open Scope R_scope.

Notation vecR := (@vec Rnum).
Notation partR := (@particle Rnum).
Notation domR := (@domain Rnum).

(** closed axis-parallel box *)
Definition in_box (d : domR) (x : vecR) : Prop :=
  xMin d <= vx x <= xMax d /\ yMin d <= vy x <= yMax d /\ zMin d <= vz x <= zMax d.

(** a domain as the loader builds it (loader.cpp:121-129): the lengths are the
    differences of the bounds, and the box is not empty *)
Definition proper_domain (d : domR) : Prop :=
  xMin d <= xMax d /\ yMin d <= yMax d /\ zMin d <= zMax d /\
  xLength d = xMax d - xMin d /\ yLength d = yMax d - yMin d /\ zLength d = zMax d - zMin d.

(** Euclidean distance *)
Definition euclid (x y : vecR) : R :=
  sqrt ((vx x - vx y) ^ 2 + (vy x - vy y) ^ 2 + (vz x - vz y) ^ 2).

(** takes part in the computation *)
Definition active (d : domR) (p : partR) : Prop := p_type p <> Ghost /\ in_box d (p_pos p).


(** sums *)
Definition rsum (l : list R) : R := fold_right Rplus 0 l.
Definition vsum (l : list vecR) : vecR := mkV (rsum (map vx l)) (rsum (map vy l)) (rsum (map vz l)).

(** sum of f j q over the particles q (index j) that are not Ghost, except particle i *)
Definition sum_others (ps : list partR) (i : nat) (f : nat -> partR -> R) : R :=
  rsum (map (fun j => match nth_error ps j with
                      | Some q => if Nat.eqb j i || (p_type q =? Ghost)%Z then 0 else f j q
                      | None => 0 end) (seq 0 (List.length ps))).

(** the MPS weight function *)
Definition w_spec (re d : R) : R := if Rlt_dec d re then re / d - 1 else 0.

(** the neighbour lists are exact for the radius re *)
Definition listed (re : R) (ps : list partR) : Prop :=
  forall i p, nth_error ps i = Some p -> p_type p <> Ghost ->
    NoDup (map nb_id (p_nbrs p)) /\
    forall nb, In nb (p_nbrs p) <->
      exists j q, nth_error ps j = Some q /\ j <> i /\ p_type q <> Ghost /\
        euclid (p_pos p) (p_pos q) < re /\ nb = @mkNb Rnum (Z.of_nat j) (euclid (p_pos p) (p_pos q)).

(** no two particles (Ghosts aside) at the same place *)
Definition apart (ps : list partR) : Prop :=
  forall i j p q, nth_error ps i = Some p -> nth_error ps j = Some q -> i <> j ->
    p_type p <> Ghost -> p_type q <> Ghost -> p_pos p <> p_pos q.

(** nonzero offsets of the cubic lattice; in two dimensions those with z = 0 *)
Definition offset (dim : Z) (c : Z * Z * Z) : Prop :=
  c <> (0, 0, 0)%Z /\ (dim = 2%Z -> snd c = 0%Z).
(** those whose coordinates are at most m in absolute value *)
Definition within (m : Z) (c : Z * Z * Z) : Prop :=
  let '(a, b, e) := c in (- m <= a <= m /\ - m <= b <= m /\ - m <= e <= m)%Z.
(** L is a finite part of the lattice (without the origin) that contains the box of
    half width m *)
Definition lattice_part (dim m : Z) (L : list (Z * Z * Z)) : Prop :=
  NoDup L /\ (forall c, In c L -> offset dim c) /\ (forall c, offset dim c -> within m c -> In c L).
(** distance of a lattice point from the origin, and its place around x *)
Definition lattice_dist (l0 : R) (c : Z * Z * Z) : R :=
  let '(a, b, e) := c in l0 * sqrt (IZR a ^ 2 + IZR b ^ 2 + IZR e ^ 2).
Definition lattice_at (l0 : R) (x : vecR) (c : Z * Z * Z) : vecR :=
  let '(a, b, e) := c in @mkV Rnum (vx x + l0 * IZR a) (vy x + l0 * IZR b) (vz x + l0 * IZR e).

(** the particles that are not Ghost, except particle i *)
Definition others (ps : list partR) (i : nat) : list partR :=
  flat_map (fun j => match nth_error ps j with
                     | Some q => if Nat.eqb j i || (p_type q =? Ghost)%Z then [] else [q]
                     | None => [] end) (seq 0 (List.length ps)).

(** plain vector algebra *)
Definition dotR (a b : vecR) : R := vx a * vx b + vy a * vy b + vz a * vz b.
Definition diffR (a b : vecR) : vecR := @mkV Rnum (vx a - vx b) (vy a - vy b) (vz a - vz b).
(** a + k n *)
Definition along (a : vecR) (k : R) (n : vecR) : vecR := @mkV Rnum (vx a + k * vx n) (vy a + k * vy n) (vz a + k * vz n).
Definition zeroR : vecR := @mkV Rnum 0 0 0.
(** the unit vector from x to y *)
Definition unitR (x y : vecR) : vecR := along zeroR (/ euclid x y) (diffR y x).

(** density-weighted sums over all particles *)
Definition momentum (ps : list partR) : vecR := vsum (map (fun p => along zeroR (p_dens p) (p_vel p)) ps).
Definition mass_centre (ps : list partR) : vecR := vsum (map (fun p => along zeroR (p_dens p) (p_pos p)) ps).
(** kinetic energy of the fluid *)
Definition fluid_energy (ps : list partR) : R :=
  rsum (map (fun p => if (p_type p =? Fluid)%Z then p_dens p * dotR (p_vel p) (p_vel p) / 2 else 0) ps).
(** the fluid has positive density *)
Definition dense (ps : list partR) : Prop := forall p, In p ps -> p_type p = Fluid -> 0 < p_dens p.

(** more vector algebra *)
Definition addR (a b : vecR) : vecR := @mkV Rnum (vx a + vx b) (vy a + vy b) (vz a + vz b).
Definition scaleR (k : R) (a : vecR) : vecR := @mkV Rnum (k * vx a) (k * vy a) (k * vz a).
(** vector sum of f j q over the particles q (index j) that are not Ghost, except particle i *)
Definition sumv (ps : list partR) (i : nat) (f : nat -> partR -> vecR) : vecR :=
  @mkV Rnum (sum_others ps i (fun j q => vx (f j q))) (sum_others ps i (fun j q => vy (f j q))) (sum_others ps i (fun j q => vz (f j q))).

(** sum over all other particles of the velocity differences, weighted *)
Definition shear (re : R) (ps : list partR) (i : nat) (p : partR) : vecR :=
  sumv ps i (fun _ q => scaleR (w_spec re (euclid (p_pos p) (p_pos q))) (diffR (p_vel q) (p_vel p))).

(** a simulator object between two steps, with usable parameters: a proper box, two
    or three dimensions, radii above the particle distance and covered by the search
    radius, reference values built from them *)
Definition usable (s : @settings Rnum) : Prop :=
  proper_domain (s_domain s) /\ (s_dim s = 2 \/ s_dim s = 3)%Z /\ 0 < s_l0 s /\
  s_l0 s < s_reN s <= s_reMax s /\ s_l0 s < s_reG s <= s_reMax s /\ s_l0 s < s_reL s <= s_reMax s.
Definition ready (m : @mps Rnum) : Prop :=
  let s := m_settings m in
  sound m /\ usable s /\
  newRefValues (s_asserts s) (s_dim s) (s_l0 s) (s_reN s) = Ok (m_rvN m) /\
  newRefValues (s_asserts s) (s_dim s) (s_l0 s) (s_reG s) = Ok (m_rvG m) /\
  newRefValues (s_asserts s) (s_dim s) (s_l0 s) (s_reL s) = Ok (m_rvL m).

(** particle i is Fluid, in the box, and no other particle that is not Ghost is closer than re *)
Definition alone (d : domR) (re : R) (i : nat) (ps : list partR) : Prop :=
  exists p, nth_error ps i = Some p /\ p_type p = Fluid /\ in_box d (p_pos p) /\
    forall j q, nth_error ps j = Some q -> j <> i -> p_type q <> Ghost -> re <= euclid (p_pos p) (p_pos q).
(** n completed steps in which particle i was alone whenever neighbours were looked for *)
Inductive lone_steps (S : @solver Rnum) (i : nat) : nat -> @mps Rnum -> @mps Rnum -> Prop :=
| lone_0 m : lone_steps S i 0 m m
| lone_S n m m1 m2 ns ps ns' ps' :
    lone_steps S i n m m1 -> stepForward S m1 = Ok m2 ->
    stepMove m1 = Ok (ns, ps) -> stepCollide m1 ns ps = Ok (ns', ps') ->
    alone (s_domain (m_settings m1)) (s_reMax (m_settings m1)) i (m_ps m1) ->
    alone (s_domain (m_settings m1)) (s_reMax (m_settings m1)) i ps ->
    alone (s_domain (m_settings m1)) (s_reMax (m_settings m1)) i ps' ->
    lone_steps S i (Datatypes.S n) m m2.

(** particle q (index j) takes part in the pressure interaction of particle p (index i) *)
Definition interacts (re : R) (ps : list partR) (i : nat) (p : partR) (j : nat) (q : partR) : Prop :=
  nth_error ps j = Some q /\ j <> i /\ p_type q <> Ghost /\ p_type q <> DummyWall /\ euclid (p_pos p) (p_pos q) < re.

(** in the plane z = 0 and moving in it *)
Definition planar (ps : list partR) : Prop := forall p, In p ps -> vz (p_pos p) = 0 /\ vz (p_vel p) = 0.

(** x solves the n equations with the matrix given by triplets ts and right hand side b *)
Definition solves (n : nat) (ts : list (@triplet Rnum)) (b x : list R) : Prop :=
  List.length x = n /\ List.length b = n /\
  forall i, (i < n)%nat -> rsum (map (fun j => entry ts (Z.of_nat i) (Z.of_nat j) * nth j x 0) (seq 0 n)) = nth i b 0.
(** whatever the solver returns is an exact solution *)
Definition exact_solver (S : @solver Rnum) : Prop := forall n ts b x, S n ts b = Some x -> solves n ts b x.

(** the sum of the offsets of the particles closer than re *)
Definition offset_sum (re : R) (ps : list partR) (i : nat) (p : partR) : vecR :=
  sumv ps i (fun _ q => if Rlt_dec (euclid (p_pos p) (p_pos q)) re then diffR (p_pos q) (p_pos p) else zeroR).

(** what the surface detector is meant to find, re being the search radius *)
Definition surface (det : @detector Rnum) (re : R) (ps : list partR) (i : nat) (p : partR) : Prop :=
  match det with
  | ByNumberDensity thr n0 => p_nd p < thr * n0
  | ByDistribution n0 l0 distRatio ndRatio => p_nd p < ndRatio * n0 /\
      ((forall j q, nth_error ps j = Some q -> j <> i -> p_type q <> Ghost -> re <= euclid (p_pos p) (p_pos q)) \/
       distRatio * l0 < Rabs (vx (offset_sum re ps i p)) \/ distRatio * l0 < Rabs (vy (offset_sum re ps i p)) \/
       distRatio * l0 < Rabs (vz (offset_sum re ps i p)))
  end.

(** particles whose pressure is prescribed *)
Definition prescribed (p : partR) : Prop := p_type p = Ghost \/ p_type p = DummyWall \/ p_bc p <> Inner.
