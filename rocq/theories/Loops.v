(** * The [#pragma omp parallel for] loops of the simulator, access by access

    Each iteration of each parallel loop is a program (Schedule.v) over the memory
    below.  A location is one member of one particle or one element of one vector
    (finer than that, e.g. single coordinates of a Vector3d, can only remove
    conflicts).  Objects that no iteration writes (settings, gravity, reference
    values, the bucket's sizes, the Dirichlet map) are not locations.  A neighbour
    list is read as a whole at the start of a loop over it. *)
From Verif Require Export Step Schedule.

Section Loops.
Context {N : Num}.
Local Open Scope num_scope.

(** The members of Particle that parallel loops access (fluidType and sourceTerm are
    not among them) and the vectors *)
Inductive field := FId | FType | FPos | FVel | FAcc | FPress | FNd | FDens | FBc | FMinp | FNbrs.
Inductive loc :=
| LP (f : field) (i : Z)   (* particles[i].f *)
| LFirst (i : Z)           (* bucket.first[i] *)
| LLast (i : Z)            (* bucket.last[i] *)
| LNext (i : Z)            (* bucket.next[i] *)
| LVec (i : Z)             (* pressure[i], in Explicit::calc and in Implicit *)
| LSrc (i : Z).            (* sourceTerm[i] of PressurePoissonEquation *)

Definition fval (f : field) : Type :=
  match f with
  | FId | FType => Z
  | FPos | FVel | FAcc => vec
  | FPress | FNd | FDens | FMinp => num
  | FBc => fluid_state
  | FNbrs => list neighbor
  end.
Definition lval (l : loc) : Type :=
  match l with LP f _ => fval f | LFirst _ | LLast _ | LNext _ => Z | LVec _ => num | LSrc _ => option num end.

Record heap := mkH {
  h_ps : list particle;
  h_first : list Z; h_last : list Z; h_next : list Z;
  h_vec : list num;
  h_src : list (option num)
}.
Definition set_ps (h : heap) x := mkH x (h_first h) (h_last h) (h_next h) (h_vec h) (h_src h).
Definition set_first (h : heap) x := mkH (h_ps h) x (h_last h) (h_next h) (h_vec h) (h_src h).
Definition set_last (h : heap) x := mkH (h_ps h) (h_first h) x (h_next h) (h_vec h) (h_src h).
Definition set_next (h : heap) x := mkH (h_ps h) (h_first h) (h_last h) x (h_vec h) (h_src h).
Definition set_vec (h : heap) x := mkH (h_ps h) (h_first h) (h_last h) (h_next h) x (h_src h).
Definition set_src (h : heap) x := mkH (h_ps h) (h_first h) (h_last h) (h_next h) (h_vec h) x.

Definition fget (f : field) (p : particle) : fval f :=
  match f with
  | FId => p_id p | FType => p_type p | FPos => p_pos p | FVel => p_vel p | FAcc => p_acc p
  | FPress => p_press p | FNd => p_nd p | FDens => p_dens p | FBc => p_bc p | FMinp => p_minp p | FNbrs => p_nbrs p
  end.
Definition set_id (p : particle) (x : Z) : particle :=
  mkP x (p_type p) (p_fluidType p) (p_pos p) (p_vel p) (p_acc p) (p_press p) (p_nd p) (p_dens p) (p_bc p) (p_src p) (p_minp p) (p_nbrs p).
Definition set_dens (p : particle) (x : num) : particle :=
  mkP (p_id p) (p_type p) (p_fluidType p) (p_pos p) (p_vel p) (p_acc p) (p_press p) (p_nd p) x (p_bc p) (p_src p) (p_minp p) (p_nbrs p).
Definition fset (f : field) : fval f -> particle -> particle :=
  match f with
  | FId => fun v p => set_id p v | FType => fun v p => set_type p v | FPos => fun v p => set_pos p v | FVel => fun v p => set_vel p v | FAcc => fun v p => set_acc p v
  | FPress => fun v p => set_press p v | FNd => fun v p => set_nd p v | FDens => fun v p => set_dens p v | FBc => fun v p => set_bc p v | FMinp => fun v p => set_minp p v
  | FNbrs => fun v p => set_nbrs p v
  end.

Definition vat {A} (l : list A) (i : Z) : option A := if (i <? 0)%Z then None else nth_error l (Z.to_nat i).
Definition vput {A} (l : list A) (i : Z) (a : A) : option (list A) :=
  match vat l i with Some _ => Some (upd l (Z.to_nat i) a) | None => None end.

Definition read (h : heap) (l : loc) : option (lval l) :=
  match l with
  | LP f i => option_map (fget f) (vat (h_ps h) i)
  | LFirst i => vat (h_first h) i
  | LLast i => vat (h_last h) i
  | LNext i => vat (h_next h) i
  | LVec i => vat (h_vec h) i
  | LSrc i => vat (h_src h) i
  end.
Definition write (h : heap) (l : loc) : lval l -> option heap :=
  match l with
  | LP f i => fun v => match vat (h_ps h) i with Some p => Some (set_ps h (upd (h_ps h) (Z.to_nat i) (fset f v p))) | None => None end
  | LFirst i => fun v => option_map (set_first h) (vput (h_first h) i v)
  | LLast i => fun v => option_map (set_last h) (vput (h_last h) i v)
  | LNext i => fun v => option_map (set_next h) (vput (h_next h) i v)
  | LVec i => fun v => option_map (set_vec h) (vput (h_vec h) i v)
  | LSrc i => fun v => option_map (set_src h) (vput (h_src h) i v)
  end.

Definition P := @prog loc lval.
Definition get (l : loc) : P (lval l) := Rd l (fun v => Ret v).
Definition put (l : loc) (v : lval l) : P unit := Wr l v (Ret tt).
Notation "x <~ p ;; k" := (bindP p (fun x => k)) (at level 61, p at next level, right associativity).
(** [particles[j]] as a reference, where [n] is particles.size() *)
Definition elem (n : nat) (j : Z) : P unit := if ((0 <=? j) && (j <? Z.of_nat n))%Z then Ret tt else Fail (Undef OutOfBounds).

(** src/mps.cpp:66-73 *)
Definition gravityP (g : vec) (i : Z) : P unit :=
  ty <~ get (LP FType i) ;;
  if (ty =? Fluid)%Z then a <~ get (LP FAcc i) ;; put (LP FAcc i) (vadd a g)
  else put (LP FAcc i) vzero.

(** src/mps.cpp:81-99 *)
Definition viscosityP (s : settings) (rv : refValues) (re : num) (n : nat) (i : Z) : P unit :=
  ty <~ get (LP FType i) ;;
  if negb (ty =? Fluid)%Z then Ret tt
  else
    l <~ get (LP FNbrs i) ;;
    v <~ foldP (fun nb acc =>
           _ <~ elem n (nb_id nb) ;;
           if nlt (nb_dist nb) (s_reL s)
           then w <~ lift (weight (s_asserts s) (nb_dist nb) re) ;;
                vj <~ get (LP FVel (nb_id nb)) ;;
                vi <~ get (LP FVel i) ;;
                Ret (vadd acc (vmulr (vsub vj vi) w))
           else Ret acc) l vzero ;;
    a <~ get (LP FAcc i) ;;
    put (LP FAcc i) (vadd a (vmulr v (visc_coeff s rv))).

(** src/mps.cpp:103-110 *)
Definition moveP (s : settings) (i : Z) : P unit :=
  ty <~ get (LP FType i) ;;
  _ <~ (if (ty =? Fluid)%Z then
          v <~ get (LP FVel i) ;;
          a <~ get (LP FAcc i) ;;
          _ <~ put (LP FVel i) (vadd v (vmulr a (s_dt s))) ;;
          x <~ get (LP FPos i) ;;
          v <~ get (LP FVel i) ;;
          put (LP FPos i) (vadd x (vmulr v (s_dt s)))
        else Ret tt) ;;
  put (LP FAcc i) vzero.

(** src/mps.cpp:150-159 *)
Definition densityP (s : settings) (re : num) (i : Z) : P unit :=
  _ <~ put (LP FNd i) #0 ;;
  ty <~ get (LP FType i) ;;
  if (ty =? Ghost)%Z then Ret tt
  else
    l <~ get (LP FNbrs i) ;;
    foldP (fun nb _ =>
      w <~ lift (weight (s_asserts s) (nb_dist nb) re) ;;
      x <~ get (LP FNd i) ;;
      put (LP FNd i) (x + w)) l tt.

(** src/pressure_calculator/dirichlet_boundary_condition_generator/free_surface.cpp:34-46 and the
    detectors src/surface_detector/number_density.cpp:5-7, distribution.cpp:7-58 *)
Definition subDetectionP (l0 distRatio : num) (n : nat) (i : Z) : P bool :=
  l <~ get (LP FNbrs i) ;;
  match l with
  | [] => Ret true
  | _ =>
    r <~ foldP (fun nb acc =>
           _ <~ elem n (nb_id nb) ;;
           xj <~ get (LP FPos (nb_id nb)) ;;
           xi <~ get (LP FPos i) ;;
           Ret (vadd acc (vsub xj xi))) l vzero ;;
    let threshold := distRatio * l0 in
    Ret (if nlt threshold (nabs (vx r)) then true
         else if nlt threshold (nabs (vy r)) then true
         else if nlt threshold (nabs (vz r)) then true
         else false)
  end.
Definition surfaceP (d : detector) (n : nat) (i : Z) : P bool :=
  nd <~ get (LP FNd i) ;;
  match d with
  | ByNumberDensity thr n0 => Ret (nlt nd (thr * n0))
  | ByDistribution n0 l0 distRatio ndRatio => if nlt nd (ndRatio * n0) then subDetectionP l0 distRatio n i else Ret false
  end.
Definition boundaryP (d : detector) (n : nat) (i : Z) : P unit :=
  ty <~ get (LP FType i) ;;
  if ((ty =? Ghost) || (ty =? DummyWall))%Z then put (LP FBc i) Ignored
  else
    f <~ surfaceP d n i ;;
    put (LP FBc i) (if (f : bool) then FreeSurface else Inner).

(** src/mps.cpp:179-182 *)
Definition minimumP (i : Z) : P unit := x <~ get (LP FPress i) ;; put (LP FMinp i) x.

(** src/mps.cpp:206-227 *)
Definition gradientP (s : settings) (rv : refValues) (re : num) (n : nat) (i : Z) : P unit :=
  ty <~ get (LP FType i) ;;
  if negb (ty =? Fluid)%Z then Ret tt
  else
    l <~ get (LP FNbrs i) ;;
    g <~ foldP (fun nb acc =>
           _ <~ elem n (nb_id nb) ;;
           tj <~ get (LP FType (nb_id nb)) ;;
           if ((tj =? Ghost) || (tj =? DummyWall))%Z then Ret acc
           else if nlt (nb_dist nb) re then
             w <~ lift (weight (s_asserts s) (nb_dist nb) re) ;;
             xj <~ get (LP FPos (nb_id nb)) ;;
             xi <~ get (LP FPos i) ;;
             pj <~ get (LP FPress (nb_id nb)) ;;
             mi <~ get (LP FMinp i) ;;
             let d := vsub xj xi in
             Ret (vadd acc (vmulr (vmulr d ((pj - mi) / vsqnorm d)) w))
           else Ret acc) l vzero ;;
    a <~ get (LP FAcc i) ;;
    rho <~ get (LP FDens i) ;;
    put (LP FAcc i) (vsub a (vdivr (vmulr g (grad_coeff s rv)) rho)).

(** src/mps.cpp:231-239 *)
Definition correctP (s : settings) (i : Z) : P unit :=
  ty <~ get (LP FType i) ;;
  _ <~ (if (ty =? Fluid)%Z then
          v <~ get (LP FVel i) ;;
          a <~ get (LP FAcc i) ;;
          _ <~ put (LP FVel i) (vadd v (vmulr a (s_dt s))) ;;
          x <~ get (LP FPos i) ;;
          a <~ get (LP FAcc i) ;;
          put (LP FPos i) (vadd x (vmulr (vmulr a (s_dt s)) (s_dt s)))
        else Ret tt) ;;
  put (LP FAcc i) vzero.

(** src/neighbor_searcher.cpp:14-44 *)
Fixpoint walkP (fuel : nat) (re : num) (n : nat) (i : Z) (j : Z) : P unit :=
  if (j =? -1)%Z then Ret tt
  else match fuel with
  | O => Fail Diverge
  | Datatypes.S fuel' =>
    _ <~ elem n j ;;
    xj <~ get (LP FPos j) ;;
    xi <~ get (LP FPos i) ;;
    let dist := vnorm (vsub xj xi) in
    id <~ get (LP FId i) ;;
    _ <~ (if negb (j =? id)%Z && nlt dist re
          then l <~ get (LP FNbrs i) ;; put (LP FNbrs i) (l ++ [mkNb j dist])
          else Ret tt) ;;
    j' <~ get (LNext j) ;;
    walkP fuel' re n i j'
  end.
Definition neighborsP (ns : searcher) (fuel : nat) (n : nat) (i : Z) : P unit :=
  let b := ns_bucket ns in
  ty <~ get (LP FType i) ;;
  if (ty =? Ghost)%Z then Ret tt
  else
    _ <~ put (LP FNbrs i) [] ;;
    x <~ get (LP FPos i) ;;
    c <~ lift (cell (ns_domain ns) (b_length b) x) ;;
    foldP (fun c' _ =>
      jb <~ lift (flat (b_numX b) (b_numY b) c') ;;
      j <~ get (LFirst jb) ;;
      walkP fuel (ns_re ns) n i j) (around c) tt.

(** src/bucket.cpp:26-30 and 31-34 *)
Definition resetP (i : Z) : P unit := _ <~ put (LFirst i) (-1)%Z ;; put (LLast i) (-1)%Z.
Definition resetNextP (i : Z) : P unit := put (LNext i) (-1)%Z.

(** src/pressure_calculator/explicit.cpp:19-34 *)
Definition explicitP (n0 c : num) (i : Z) : P unit :=
  ty <~ get (LP FType i) ;;
  if (ty =? Ghost)%Z then id <~ get (LP FId i) ;; put (LVec id) #0
  else
    ni <~ get (LP FNd i) ;;
    rho <~ get (LP FDens i) ;;
    id <~ get (LP FId i) ;;
    if nlt n0 ni then put (LVec id) (c * c * rho * (ni - n0) / n0) else put (LVec id) #0.

(** src/pressure_calculator/pressure_poisson_equation.cpp:79-87 *)
Definition sourceP (q : ppe) (d : dirichlet) (i : Z) : P unit :=
  id <~ get (LP FId i) ;;
  if dbc_contains d id then x <~ lift (dbc_value d id) ;; put (LSrc id) (Some x)
  else nd <~ get (LP FNd i) ;; put (LSrc id) (Some (q_gamma q * (#1 / (q_dt q * q_dt q)) * ((nd - q_n0N q) / q_n0N q))).

(** src/pressure_calculator/implicit.cpp:52-57 *)
Definition clipP (i : Z) : P unit := x <~ get (LVec i) ;; if nlt x #0 then put (LVec i) #0 else Ret tt.

(** The parallel loops.  MPS::setBoundaryCondition (src/mps.cpp:162-176) is the same
    loop as FreeSurface::setBoundaryCondition; nothing calls it. *)
Inductive omp_loop :=
| CalGravity (g : vec)
| CalViscosity (s : settings) (rv : refValues) (re : num)
| MoveParticle (s : settings)
| CalNumberDensity (s : settings) (re : num)
| SetBoundaryCondition (d : detector)
| InitMinimumPressure
| CalPressureGradient (s : settings) (rv : refValues) (re : num)
| MoveByPressureGradient (s : settings)
| SetNeighbors (ns : searcher)
| ResetFirstLast (num : Z)
| ResetNext
| ExplicitCalc (n0 c : num)
| SetSourceTerm (q : ppe) (d : dirichlet)
| RemoveNegative.

(** iteration [i] of a loop started in memory [h] *)
Definition body (L : omp_loop) (h : heap) (i : Z) : P unit :=
  let n := List.length (h_ps h) in
  match L with
  | CalGravity g => gravityP g i
  | CalViscosity s rv re => viscosityP s rv re n i
  | MoveParticle s => moveP s i
  | CalNumberDensity s re => densityP s re i
  | SetBoundaryCondition d => boundaryP d n i
  | InitMinimumPressure => minimumP i
  | CalPressureGradient s rv re => gradientP s rv re n i
  | MoveByPressureGradient s => correctP s i
  | SetNeighbors ns => neighborsP ns (Datatypes.S (List.length (h_next h))) n i
  | ResetFirstLast _ => resetP i
  | ResetNext => resetNextP i
  | ExplicitCalc n0 c => explicitP n0 c i
  | SetSourceTerm q d => sourceP q d i
  | RemoveNegative => clipP i
  end.
(** the number of iterations *)
Definition trips (L : omp_loop) (h : heap) : nat :=
  match L with
  | ResetFirstLast num => Z.to_nat num
  | RemoveNegative => List.length (h_vec h)
  | _ => List.length (h_ps h)
  end.
Definition iterations (L : omp_loop) (h : heap) : list (P unit) :=
  map (fun i => body L h (Z.of_nat i)) (seq 0 (trips L h)).

(** what the sequential model says about the loop *)
Definition sequential (L : omp_loop) (h : heap) : outcome heap :=
  match L with
  | CalGravity g => Ok (set_ps h (calGravity g (h_ps h)))
  | CalViscosity s rv re => ps <- calViscosity s rv re (h_ps h) ;; Ok (set_ps h ps)
  | MoveParticle s => Ok (set_ps h (moveParticle s (h_ps h)))
  | CalNumberDensity s re => ps <- calNumberDensity s re (h_ps h) ;; Ok (set_ps h ps)
  | SetBoundaryCondition d => ps <- setBoundaryCondition d (h_ps h) ;; Ok (set_ps h ps)
  | InitMinimumPressure => Ok (set_ps h (map (fun p => set_minp p (p_press p)) (h_ps h)))
  | CalPressureGradient s rv re => ps <- calPressureGradient s rv re (h_ps h) ;; Ok (set_ps h ps)
  | MoveByPressureGradient s => Ok (set_ps h (moveParticleUsingPressureGradient s (h_ps h)))
  | SetNeighbors ns =>
      let b := ns_bucket ns in
      ps <- each (neighborsOf ns (mkB (b_num b) (b_numX b) (b_numY b) (b_numZ b) (b_length b) (b_domain b) (h_next h) (h_first h) (h_last h))) (h_ps h) ;;
      Ok (set_ps h ps)
  | ResetFirstLast num =>
      let n := Z.to_nat num in
      Ok (set_last (set_first h (repeat (-1)%Z n ++ skipn n (h_first h))) (repeat (-1)%Z n ++ skipn n (h_last h)))
  | ResetNext =>
      let n := List.length (h_ps h) in
      Ok (set_next h (repeat (-1)%Z n ++ skipn n (h_next h)))
  | ExplicitCalc n0 c => x <- explicitCalc n0 c (h_ps h) ;; Ok (set_vec h x)
  | SetSourceTerm q d => x <- setSourceTerm q d (h_ps h) ;; Ok (set_src h x)
  | RemoveNegative => Ok (set_vec h (removeNegative (h_vec h)))
  end.

(** the memory a loop is started in: ids are indices (Particles::add asserts it), and
    the vectors have the sizes and contents their constructors gave them
    (bucket.cpp:19-21; explicit.cpp:16-17; pressure_poisson_equation.cpp:63) *)
Definition starts (L : omp_loop) (h : heap) : Prop :=
  (forall i p, nth_error (h_ps h) i = Some p -> p_id p = Z.of_nat i) /\
  match L with
  | ResetFirstLast num => (0 <= num <= Z.of_nat (List.length (h_first h)) /\ num <= Z.of_nat (List.length (h_last h)))%Z
  | ResetNext => (List.length (h_ps h) <= List.length (h_next h))%nat
  | ExplicitCalc _ _ => h_vec h = repeat #0 (List.length (h_ps h))
  | SetSourceTerm _ _ => h_src h = repeat None (List.length (h_ps h))
  | _ => True
  end.
End Loops.
