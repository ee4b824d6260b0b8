(** * A planar problem stays planar, in exact arithmetic (C23) *)
From Coq Require Import Reals Lra PeanoNat.
From Verif Require Export MotionR CollisionR Planar.
Open Scope R_scope.
#[local] Remove Hints F64 : typeclass_instances.

Lemma C23_lemma S n (m m' : @mps Rnum) : steps S n m m' -> sound m -> vz (m_gravity m) = 0 -> planar (m_ps m) -> planar (m_ps m').
Proof.
  intros H SD G P. refine (@steps_flat Rnum (fun x : R => x = 0) _ _ _ _ _ _ S n m m' H SD G P); simpl; try reflexivity; intros; subst; unfold Rdiv; ring.
Qed.
