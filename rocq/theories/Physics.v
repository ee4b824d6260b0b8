(** * Weight function, reference values and the stages of one time step
    (src/weight.cpp, src/refvalues.cpp, src/mps.cpp) *)
From Verif Require Export Neighbor.

Section Physics.
Context {N : Num}.
Local Open Scope num_scope.

(** weight, src/weight.cpp:5-14.  [dis > 0.0] is [0.0 < dis]; [dis >= re] is [re <= dis]. *)
Definition weight (dbg : bool) (dis re : num) : outcome num :=
  _ <- cassert dbg (nlt #0 dis) ;;
  Ok (if nle re dis then #0 else re / dis - #1).

(** RefValues, src/refvalues.hpp:8-22 *)
Record refValues := mkRV { rv_n0 : num; rv_lambda : num }.

(** int loop variable running over lo, lo+1, ..., hi-1 *)
Definition zrange (lo hi : Z) : list Z := map (fun k => (lo + Z.of_nat k)%Z) (seq 0 (Z.to_nat (hi - lo))).

(** the lattice offsets visited by the loops src/refvalues.cpp:21-25 *)
Definition ref_offsets (dim : Z) : list (Z * Z * Z) :=
  let '(z0, z1) := if (dim =? 2)%Z then (0, 1)%Z else (-4, 5)%Z in
  filter (fun c => let '(iX, iY, iZ) := c in negb (((iX =? 0) && (iY =? 0)) && (iZ =? 0))%Z)
    (flat_map (fun iX => flat_map (fun iY => map (fun iZ => (iX, iY, iZ)) (zrange z0 z1)) (zrange (-4) 5)) (zrange (-4) 5)).

(** one iteration, src/refvalues.cpp:27-33 *)
Definition ref_step (dbg : bool) (l0 re : num) (c : Z * Z * Z) (s : num * num) : outcome (num * num) :=
  let '(iX, iY, iZ) := c in
  let '(n0, lambda) := s in
  let xj := l0 * #iX in
  let yj := l0 * #iY in
  let zj := l0 * #iZ in
  let dis2 := xj * xj + yj * yj + zj * zj in
  let dis := nsqrt dis2 in
  w <- weight dbg dis re ;;
  Ok (n0 + w, lambda + dis2 * w).

(** RefValues::RefValues, src/refvalues.cpp:9-38 *)
Definition newRefValues (dbg : bool) (dim : Z) (l0 re : num) : outcome refValues :=
  _ <- cassert dbg ((dim =? 2) || (dim =? 3))%Z ;;
  _ <- cassert dbg (nlt l0 re) ;;
  '(n0, lambda) <- foldM (ref_step dbg l0 re) (ref_offsets dim) (#0, #0) ;;
  Ok (mkRV n0 (lambda / n0)).

(** MPS::calGravity, src/mps.cpp:65-74.  The body touches only its own particle, so
    the loop is a [map]; likewise below wherever [map] is used. *)
Definition calGravity1 (g : vec) (p : particle) : particle :=
  if is_type p Fluid then set_acc p (vadd (p_acc p) g) else set_acc p vzero.
Definition calGravity (g : vec) (ps : list particle) : list particle := map (calGravity1 g) ps.

(** MPS::calViscosity, src/mps.cpp:76-100 *)
Definition visc_coeff (s : settings) (rv : refValues) : num :=
  s_nu s * (#2 * #(s_dim s)) / (rv_n0 rv * rv_lambda rv).

Definition visc_term (s : settings) (re : num) (ps : list particle) (pi : particle) (nb : neighbor) (acc : vec) : outcome vec :=
  pj <- vget ps (nb_id nb) ;;
  if nlt (nb_dist nb) (s_reL s)
  then w <- weight (s_asserts s) (nb_dist nb) re ;;
       Ok (vadd acc (vmulr (vsub (p_vel pj) (p_vel pi)) w))
  else Ok acc.

Definition calViscosity1 (s : settings) (rv : refValues) (re : num) (ps : list particle) (pi : particle) : outcome particle :=
  if negb (is_type pi Fluid) then Ok pi
  else
    v <- foldM (visc_term s re ps pi) (p_nbrs pi) vzero ;;
    Ok (set_acc pi (vadd (p_acc pi) (vmulr v (visc_coeff s rv)))).

Definition calViscosity (s : settings) (rv : refValues) (re : num) (ps : list particle) : outcome (list particle) :=
  each (calViscosity1 s rv re) ps.

(** MPS::moveParticle, src/mps.cpp:102-111 *)
Definition moveParticle1 (s : settings) (p : particle) : particle :=
  let p := if is_type p Fluid
           then let v := vadd (p_vel p) (vmulr (p_acc p) (s_dt s)) in
                set_pos (set_vel p v) (vadd (p_pos p) (vmulr v (s_dt s)))
           else p in
  set_acc p vzero.
Definition moveParticle (s : settings) (ps : list particle) : list particle := map (moveParticle1 s) ps.

(** body of the inner loop of MPS::collision, src/mps.cpp:119-144, for the particle at
    index i and one of its neighbours.  The four updates are done one after the
    other on the vector, as in the code. *)
Definition collide (s : settings) (i : nat) (nb : neighbor) (ps : list particle) : outcome (list particle) :=
  pi <- vget ps (Z.of_nat i) ;;
  pj <- vget ps (nb_id nb) ;;
  if is_type pj Fluid && (p_id pi <=? p_id pj)%Z then Ok ps
  else if nlt (nb_dist nb) (s_colDist s) then
    let invMi := inverseDensity pi in
    let invMj := inverseDensity pj in
    let mass := #1 / (invMi + invMj) in
    let normal := vnormalized (vsub (p_pos pj) (p_pos pi)) in
    let relVel := vdot (vsub (p_vel pj) (p_vel pi)) normal in
    let impulse := if nlt relVel #0 then - (#1 + s_restitution s) * relVel * mass else #0 in
    ps <- vmod ps (Z.of_nat i) (fun p => set_vel p (vsub (p_vel p) (vmull (impulse * invMi) normal))) ;;
    ps <- vmod ps (nb_id nb) (fun p => set_vel p (vadd (p_vel p) (vmull (impulse * invMj) normal))) ;;
    let depth := s_colDist s - nb_dist nb in
    let positionImpulse := depth * mass in
    ps <- vmod ps (Z.of_nat i) (fun p => set_pos p (vsub (p_pos p) (vmull (positionImpulse * invMi) normal))) ;;
    vmod ps (nb_id nb) (fun p => set_pos p (vadd (p_pos p) (vmull (positionImpulse * invMj) normal)))
  else Ok ps.

(** MPS::collision, src/mps.cpp:113-147 *)
Definition collision1 (s : settings) (i : nat) (ps : list particle) : outcome (list particle) :=
  pi <- vget ps (Z.of_nat i) ;;
  if negb (is_type pi Fluid) then Ok ps
  else foldM (collide s i) (p_nbrs pi) ps.
Definition collision (s : settings) (ps : list particle) : outcome (list particle) :=
  foldM (collision1 s) (seq 0 (List.length ps)) ps.

(** MPS::calNumberDensity, src/mps.cpp:149-160 *)
Definition calNumberDensity1 (s : settings) (re : num) (_ : list particle) (pi : particle) : outcome particle :=
  if is_type pi Ghost then Ok (set_nd pi #0)
  else
    n <- foldM (fun nb n => w <- weight (s_asserts s) (nb_dist nb) re ;; Ok (n + w)) (p_nbrs pi) #0 ;;
    Ok (set_nd pi n).
Definition calNumberDensity (s : settings) (re : num) (ps : list particle) : outcome (list particle) :=
  each (calNumberDensity1 s re) ps.

Definition ghost_or_dummy (p : particle) : bool := is_type p Ghost || is_type p DummyWall.

(** inner loop body of MPS::setMinimumPressure, src/mps.cpp:189-198 *)
Definition minp_pair (re : num) (i : nat) (nb : neighbor) (ps : list particle) : outcome (list particle) :=
  pi <- vget ps (Z.of_nat i) ;;
  pj <- vget ps (nb_id nb) ;;
  if ghost_or_dummy pj then Ok ps
  else if (p_id pi <? p_id pj)%Z then Ok ps
  else if nlt (nb_dist nb) re then
    ps <- vmod ps (Z.of_nat i) (fun p => set_minp p (nmin (p_minp p) (p_press pj))) ;;
    vmod ps (nb_id nb) (fun p => set_minp p (nmin (p_minp p) (p_press pi)))
  else Ok ps.

(** MPS::setMinimumPressure, src/mps.cpp:178-201 *)
Definition minp1 (re : num) (i : nat) (ps : list particle) : outcome (list particle) :=
  pi <- vget ps (Z.of_nat i) ;;
  if ghost_or_dummy pi then Ok ps
  else foldM (minp_pair re i) (p_nbrs pi) ps.
Definition setMinimumPressure (re : num) (ps : list particle) : outcome (list particle) :=
  let ps := map (fun p => set_minp p (p_press p)) ps in
  foldM (minp1 re) (seq 0 (List.length ps)) ps.

(** MPS::calPressureGradient, src/mps.cpp:203-228 *)
Definition grad_coeff (s : settings) (rv : refValues) : num := #(s_dim s) / rv_n0 rv.

Definition grad_term (s : settings) (re : num) (ps : list particle) (pi : particle) (nb : neighbor) (acc : vec) : outcome vec :=
  pj <- vget ps (nb_id nb) ;;
  if ghost_or_dummy pj then Ok acc
  else if nlt (nb_dist nb) re then
    w <- weight (s_asserts s) (nb_dist nb) re ;;
    let d := vsub (p_pos pj) (p_pos pi) in
    let dist2 := vsqnorm d in
    let pij := (p_press pj - p_minp pi) / dist2 in
    Ok (vadd acc (vmulr (vmulr d pij) w))
  else Ok acc.

Definition calPressureGradient1 (s : settings) (rv : refValues) (re : num) (ps : list particle) (pi : particle) : outcome particle :=
  if negb (is_type pi Fluid) then Ok pi
  else
    g <- foldM (grad_term s re ps pi) (p_nbrs pi) vzero ;;
    Ok (set_acc pi (vsub (p_acc pi) (vdivr (vmulr g (grad_coeff s rv)) (p_dens pi)))).

Definition calPressureGradient (s : settings) (rv : refValues) (re : num) (ps : list particle) : outcome (list particle) :=
  each (calPressureGradient1 s rv re) ps.

(** MPS::moveParticleUsingPressureGradient, src/mps.cpp:230-240 *)
Definition correct1 (s : settings) (p : particle) : particle :=
  let p := if is_type p Fluid
           then set_pos (set_vel p (vadd (p_vel p) (vmulr (p_acc p) (s_dt s))))
                        (vadd (p_pos p) (vmulr (vmulr (p_acc p) (s_dt s)) (s_dt s)))
           else p in
  set_acc p vzero.
Definition moveParticleUsingPressureGradient (s : settings) (ps : list particle) : list particle :=
  map (correct1 s) ps.

(** MPS::calCourant, src/mps.cpp:242-256: the value stored in [courant], and whether
    the error message is printed. *)
Definition courant1 (s : settings) (c : num) (p : particle) : num :=
  if is_type p Fluid then nmax c (vnorm (p_vel p) * s_dt s / s_l0 s) else c.
Definition calCourant (s : settings) (ps : list particle) : num * bool :=
  let c := fold_left (courant1 s) ps #0 in
  (c, nlt (s_cfl s) c).
End Physics.
