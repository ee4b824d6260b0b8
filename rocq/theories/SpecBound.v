(** * How large the implicit pressures are, and where they are positive (C84) *)
From Coq Require Import Reals.
From Verif Require Export SpecStep.
Open Scope R_scope.

(** the particles whose pressure is not prescribed *)
Definition solved_for (det : @detector Rnum) (rs : R) (ps : list partR) (i : nat) (p : partR) : Prop :=
  p_type p <> Ghost /\ p_type p <> DummyWall /\ ~ surface det rs ps i p.
(** by how much particle p is compressed *)
Definition compression (n0 : R) (p : partR) : R := (p_nd p - n0) / n0.

(** compressed particles of the interior, and all particles of the interior joined to them by chains of
    interior particles closer than the radius of the Laplacian *)
Inductive fed (det : @detector Rnum) (rs n0 reL : R) (ps : list partR) : nat -> Prop :=
| fed_self i p : nth_error ps i = Some p -> solved_for det rs ps i p -> n0 < p_nd p -> fed det rs n0 reL ps i
| fed_next i p j q : nth_error ps i = Some p -> solved_for det rs ps i p -> nth_error ps j = Some q -> i <> j ->
    euclid (p_pos p) (p_pos q) < reL -> fed det rs n0 reL ps j -> fed det rs n0 reL ps i.

(** the same particles, some of them more compressed *)
Definition denser (det : @detector Rnum) (rs : R) (ps qs : list partR) : Prop :=
  List.length ps = List.length qs /\ forall i p q, nth_error ps i = Some p -> nth_error qs i = Some q ->
    p_type q = p_type p /\ p_pos q = p_pos p /\ p_dens q = p_dens p /\ p_nd p <= p_nd q /\ (solved_for det rs ps i p <-> solved_for det rs qs i q).
