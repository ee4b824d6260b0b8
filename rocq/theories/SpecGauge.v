(** * Vocabulary: pressures raised by a constant, or multiplied (C87) *)
From Coq Require Import Reals.
From Verif Require Export SpecR.
Open Scope R_scope.

(** [q] is [p] with the pressure raised by [c]; the stored minimum is left open *)
Definition raised (c : R) (p q : partR) : Prop := q = set_minp (set_press p (p_press p + c)) (p_minp q).
(** [q] is [p] with pressure and acceleration multiplied by [k] *)
Definition amplified (k : R) (p q : partR) : Prop := q = set_minp (set_acc (set_press p (k * p_press p)) (scaleR k (p_acc p))) (p_minp q).
