(** * Vocabulary of C78, exact arithmetic *)
From Verif Require Export SpecStep.
Open Scope R_scope.

(** the way of a body with velocity [v] in k steps of free fall *)
Definition fallen (dt : R) (v g : vecR) (k : nat) : vecR :=
  addR (scaleR (INR k * dt) v) (scaleR (INR k * (INR k + 1) / 2 * dt ^ 2) g).
(** the number density at which pressure begins *)
Definition nominal (k : @calculator Rnum) : R := match k with Explicit n0 _ => n0 | Implicit _ q => q_n0N q end.
(** constants under which compression gives pressure *)
Definition regular (k : @calculator Rnum) (reMax : R) : Prop :=
  sensible k reMax /\ match k with Explicit _ _ => True | Implicit _ q => 0 < q_compress q /\ 0 <= q_gamma q /\ (0 <= q_dim q)%Z end.
(** particle i is not compressed *)
Definition relaxed (reN n0 : R) (ps : list partR) (i : nat) (p : partR) : Prop :=
  sum_others ps i (fun _ q => w_spec reN (euclid (p_pos p) (p_pos q))) <= n0.
(** the fluid is part of a cubic lattice with spacing l0 through some point, in two dimensions in a plane *)
Definition on_lattice (dim : Z) (l0 : R) (ps : list partR) : Prop :=
  exists x, forall p, In p ps -> p_type p = Fluid -> exists c, (dim = 2%Z -> snd c = 0%Z) /\ p_pos p = lattice_at l0 x c.
