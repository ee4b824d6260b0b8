(** * What a step depends on; continuing a run from a stored state (C71, C72) *)
From Verif Require Export SpecSim.
Open Scope Z_scope.

(** two outcomes of the same kind, with related results *)
Definition agree {A B} (R : A -> B -> Prop) (x : outcome A) (y : outcome B) : Prop :=
  match x, y with
  | Ok a, Ok b => R a b
  | Undef u, Undef v => u = v
  | AssertFail, AssertFail => True
  | Exit c, Exit d => c = d
  | Throw, Throw => True
  | Diverge, Diverge => True
  | _, _ => False
  end.

Section SpecResume.
Context {N : Num}.
(** equal number, type, position, velocity and density *)
Definition alike (p q : particle) : Prop :=
  p_id p = p_id q /\ p_type p = p_type q /\ p_pos p = p_pos q /\ p_vel p = p_vel q /\ p_dens p = p_dens q.
(** and equal acceleration, pressure, number density, minimum pressure and, unless the
    particle is a ghost, neighbours *)
Definition same_result (p q : particle) : Prop :=
  alike p q /\ p_acc p = p_acc q /\ p_press p = p_press q /\ p_nd p = p_nd q /\ p_minp p = p_minp q /\ (p_type p <> Ghost -> p_nbrs p = p_nbrs q).
(** the same but for the particles, the searcher's memory and the Courant number *)
Definition same_setup (m r : mps) : Prop :=
  m_settings m = m_settings r /\ m_gravity m = m_gravity r /\ m_rvN m = m_rvN r /\ m_rvG m = m_rvG r /\ m_rvL m = m_rvL r /\ m_calc m = m_calc r.
(** equal boundary conditions *)
Definition same_marks (m r : mps) : Prop := Forall2 (fun p q => p_bc p = p_bc q) (m_ps m) (m_ps r).
Definition marking (k : calculator) : Prop := match k with Implicit _ _ => True | Explicit _ _ => False end.

(** after [k] further steps of both: the same state; what a step computes is the same once
    there was one *)
Definition continued (k : nat) (m r : mps) : Prop :=
  same_setup m r /\ Forall2 alike (m_ps m) (m_ps r) /\ ((0 < k)%nat -> Forall2 same_result (m_ps m) (m_ps r) /\ m_courant m = m_courant r).
(** particles just constructed and numbered 0, 1, ... *)
Definition made (ps : list particle) : Prop :=
  forall i p, nth_error ps i = Some p -> p = newParticle (Z.of_nat i) (p_type p) (p_pos p) (p_vel p) (p_dens p) (p_fluidType p).
End SpecResume.
