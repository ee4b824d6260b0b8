(** * Free-surface detection and pressure calculation
    (src/surface_detector, src/pressure_calculator) *)
From Verif Require Export Physics.

Section Pressure.
Context {N : Num}.
Local Open Scope num_scope.

(** SurfaceDetector::NumberDensity (src/surface_detector/number_density.cpp:12-15) and
    SurfaceDetector::Distribution (src/surface_detector/distribution.cpp:60-65) *)
Inductive detector :=
| ByNumberDensity (thresholdRatio n0 : num)
| ByDistribution (n0 l0 distRatio ndRatio : num).

(** Distribution::subDetection, src/surface_detector/distribution.cpp:31-58.
    Simplification: [abs] is taken to be std::abs(double); the code calls it
    unqualified and unincluded, and an implementation where only ::abs(int) were
    visible would behave differently. *)
Definition subDetection (l0 distRatio : num) (ps : list particle) (p : particle) : outcome bool :=
  match p_nbrs p with
  | [] => Ok true
  | _ =>
    r <- foldM (fun nb acc => pj <- vget ps (nb_id nb) ;; Ok (vadd acc (vsub (p_pos pj) (p_pos p))))
               (p_nbrs p) vzero ;;
    let threshold := distRatio * l0 in
    Ok (if nlt threshold (nabs (vx r)) then true
        else if nlt threshold (nabs (vy r)) then true
        else if nlt threshold (nabs (vz r)) then true
        else false)
  end.

(** NumberDensity::isFreeSurface, number_density.cpp:5-7; Distribution::isFreeSurface
    and mainDetection, distribution.cpp:7-25 *)
Definition isFreeSurface (d : detector) (ps : list particle) (p : particle) : outcome bool :=
  match d with
  | ByNumberDensity thr n0 => Ok (nlt (p_nd p) (thr * n0))
  | ByDistribution n0 l0 distRatio ndRatio =>
    if nlt (p_nd p) (ndRatio * n0) then subDetection l0 distRatio ps p else Ok false
  end.

(** FreeSurface::setBoundaryCondition,
    src/pressure_calculator/dirichlet_boundary_condition_generator/free_surface.cpp:33-47 *)
Definition setBC1 (d : detector) (ps : list particle) (pi : particle) : outcome particle :=
  if ghost_or_dummy pi then Ok (set_bc pi Ignored)
  else
    f <- isFreeSurface d ps pi ;;
    Ok (set_bc pi (if (f : bool) then FreeSurface else Inner)).
Definition setBoundaryCondition (d : detector) (ps : list particle) : outcome (list particle) :=
  each (setBC1 d) ps.

(** DirichletBoundaryCondition, dirichlet_boundary_condition.cpp:5-15: an
    unordered_map from id to value, as an association list where the newest entry
    for a key wins.  value() throws std::out_of_range for a missing key. *)
Definition dirichlet := list (Z * num).
Definition dbc_find (d : dirichlet) (id : Z) : option num :=
  match find (fun e => fst e =? id)%Z d with Some e => Some (snd e) | None => None end.
Definition dbc_contains (d : dirichlet) (id : Z) : bool :=
  match dbc_find d id with Some _ => true | None => false end.
Definition dbc_value (d : dirichlet) (id : Z) : outcome num :=
  match dbc_find d id with Some v => Ok v | None => Throw end.
Definition dbc_set (d : dirichlet) (id : Z) (v : num) : dirichlet := (id, v) :: d.

(** FreeSurface::generate, free_surface.cpp:8-20 *)
Definition generateBC (det : detector) (ps : list particle) : outcome (list particle * dirichlet) :=
  ps <- setBoundaryCondition det ps ;;
  Ok (ps, fold_left (fun d p => if fs_eqb (p_bc p) Inner then d else dbc_set d (p_id p) #0) ps []).

(** PressurePoissonEquation, pressure_poisson_equation.hpp:14-64 (parameters only) *)
Record ppe := mkPPE {
  q_asserts : bool;
  q_dim : Z; q_dt : num; q_gamma : num; q_compress : num;
  q_n0N : num; q_n0L : num; q_lambda : num; q_reL : num; q_reN : num
}.

(** PressurePoissonEquation::setSourceTerm, pressure_poisson_equation.cpp:73-88.
    Eigen's resize leaves the entries uninitialised: [None]. *)
Definition source1 (q : ppe) (d : dirichlet) (pi : particle) : outcome num :=
  if dbc_contains d (p_id pi) then dbc_value d (p_id pi)
  else Ok (q_gamma q * (#1 / (q_dt q * q_dt q)) * ((p_nd pi - q_n0N q) / q_n0N q)).
Definition setSourceTerm (q : ppe) (d : dirichlet) (ps : list particle) : outcome (list (option num)) :=
  foldM (fun pi v => x <- source1 q d pi ;; vset v (p_id pi) (Some x)) ps (repeat None (List.length ps)).

(** Eigen::Triplet<double> *)
Record triplet := mkT { t_row : Z; t_col : Z; t_val : num }.

(** PressurePoissonEquation::setMatrixTriplets, pressure_poisson_equation.cpp:99-129 *)
Definition ppe_coeff (q : ppe) : num := #2 * #(q_dim q) / (q_n0L q * q_lambda q).

Definition matrix_term (q : ppe) (ps : list particle) (pi : particle) (nb : neighbor)
    (st : list triplet * num) : outcome (list triplet * num) :=
  let '(ts, cii) := st in
  pj <- vget ps (nb_id nb) ;;
  if fs_eqb (p_bc pj) Ignored then Ok st
  else if nlt (nb_dist nb) (q_reL q) then
    w <- weight (q_asserts q) (nb_dist nb) (q_reL q) ;;
    let cij := ppe_coeff q * w / p_dens pi in
    Ok (ts ++ [mkT (p_id pi) (p_id pj) (#(-1) * cij)], cii + cij)
  else Ok st.

Definition matrix_row (q : ppe) (d : dirichlet) (ps : list particle) (pi : particle)
    (ts : list triplet) : outcome (list triplet) :=
  if dbc_contains d (p_id pi) then Ok (ts ++ [mkT (p_id pi) (p_id pi) #1])
  else
    '(ts, cii) <- foldM (matrix_term q ps pi) (p_nbrs pi) (ts, #0) ;;
    Ok (ts ++ [mkT (p_id pi) (p_id pi) (cii + q_compress q / (q_dt q * q_dt q))]).

Definition setMatrixTriplets (q : ppe) (d : dirichlet) (ps : list particle) : outcome (list triplet) :=
  foldM (matrix_row q d ps) ps [].

(** Eigen's setFromTriplets, used at pressure_poisson_equation.cpp:39: entries of the
    same position are added up.  (Row and column indices outside the matrix are an
    Eigen assertion / memory error.) *)
Definition entry (ts : list triplet) (i j : Z) : num :=
  fold_left (fun a t => if ((t_row t =? i) && (t_col t =? j))%Z then a + t_val t else a) ts #0.
Definition triplet_in_range (n : nat) (t : triplet) : bool :=
  ((0 <=? t_row t) && (t_row t <? Z.of_nat n) && (0 <=? t_col t) && (t_col t <? Z.of_nat n))%Z.

(** Eigen::BiCGSTAB, used at pressure_poisson_equation.cpp:46-49, is not modelled:
    it is any function from (size, triplets, right hand side) to either a vector or
    failure (info() != Success). *)
Definition solver := nat -> list triplet -> list num -> option (list num).

Fixpoint initialised (l : list (option num)) : outcome (list num) :=
  match l with
  | [] => Ok []
  | Some x :: l' => r <- initialised l' ;; Ok (x :: r)
  | None :: _ => Undef Uninit
  end.

(** PressurePoissonEquation::setup and solve, pressure_poisson_equation.cpp:31-59 *)
Definition ppe_setup (q : ppe) (d : dirichlet) (ps : list particle) : outcome (list triplet * list num) :=
  b <- setSourceTerm q d ps ;;
  ts <- setMatrixTriplets q d ps ;;
  if negb (forallb (triplet_in_range (List.length ps)) ts) then Undef OutOfBounds
  else
    b <- initialised b ;;
    Ok (ts, b).
Definition ppe_solve (S : solver) (q : ppe) (d : dirichlet) (ps : list particle) : outcome (list num) :=
  '(ts, b) <- ppe_setup q d ps ;;
  match S (List.length ps) ts b with
  | Some x => Ok x
  | None => Exit (-1)
  end.

(** Implicit::removeNegativePressure, implicit.cpp:51-58 *)
Definition removeNegative (p : list num) : list num := map (fun x => if nlt x #0 then #0 else x) p.

(** Implicit::calc, implicit.cpp:39-46 *)
Definition implicitCalc (S : solver) (det : detector) (q : ppe) (ps : list particle) : outcome (list particle * list num) :=
  '(ps, d) <- generateBC det ps ;;
  x <- ppe_solve S q d ps ;;
  Ok (ps, removeNegative x).

(** Explicit::calc, explicit.cpp:15-37 *)
Definition explicit1 (n0 c : num) (pi : particle) : num :=
  if is_type pi Ghost then #0
  else if nlt n0 (p_nd pi) then c * c * p_dens pi * (p_nd pi - n0) / n0
  else #0.
Definition explicitCalc (n0 c : num) (ps : list particle) : outcome (list num) :=
  foldM (fun pi v => vset v (p_id pi) (explicit1 n0 c pi)) ps (repeat #0 (List.length ps)).

(** the two implementations of PressureCalculator::Interface *)
Inductive calculator :=
| Implicit (det : detector) (q : ppe)
| Explicit (n0 c : num).

Definition calc (S : solver) (k : calculator) (ps : list particle) : outcome (list particle * list num) :=
  match k with
  | Implicit det q => implicitCalc S det q ps
  | Explicit n0 c => x <- explicitCalc n0 c ps ;; Ok (ps, x)
  end.
End Pressure.
