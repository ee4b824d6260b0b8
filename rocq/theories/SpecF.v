(** * Vocabulary of the statements about physics in doubles *)
From Coq Require Import Reals.
From Flocq Require Import Core.
From Verif Require Export Spec NumF.

(** a zero of either sign *)
Definition zeroF (x : f64) : Prop := exists s, x = B754_zero s.
(** the number x has not changed (save that a zero may have changed its sign), or it has
    become NaN *)
Definition kept (x x' : f64) : Prop := x' = x \/ (zeroF x /\ zeroF x') \/ is_nan x' = true.
Definition kept3 (v v' : @vec F64) : Prop := kept (vx v) (vx v') /\ kept (vy v) (vy v') /\ kept (vz v) (vz v').

(** in the plane z = 0 and moving in it, as far as NaN allows *)
Definition zero_or_nan (x : f64) : Prop := zeroF x \/ is_nan x = true.
Definition planarF (ps : list (@particle F64)) : Prop := forall p, In p ps -> zero_or_nan (vz (p_pos p)) /\ zero_or_nan (vz (p_vel p)).

(** not NaN *)
Definition numberF (x : f64) : Prop := is_nan x = false.
(** every neighbour is another particle, not Ghost, with the same distance in its list *)
Definition mutual (ps : list (@particle F64)) : Prop :=
  forall i p nb, nth_error ps i = Some p -> p_type p <> Ghost -> In nb (p_nbrs p) ->
    exists j q, nb_id nb = Z.of_nat j /\ j <> i /\ nth_error ps j = Some q /\ p_type q <> Ghost /\ In (mkNb (Z.of_nat i) (nb_dist nb)) (p_nbrs q).
(** particle q (index j) takes part in the pressure interaction of particle p *)
Definition interactsF (re : f64) (ps : list (@particle F64)) (p : @particle F64) (j : nat) (q : @particle F64) : Prop :=
  nth_error ps j = Some q /\ p_type q <> DummyWall /\ exists nb, In nb (p_nbrs p) /\ nb_id nb = Z.of_nat j /\ @nlt F64 (nb_dist nb) re = true.

(** signs (NaN is neither) *)
Definition posF (x : f64) : Prop := @nlt F64 (@nofZ F64 0) x = true.
Definition nonnegF (x : f64) : Prop := @nle F64 (@nofZ F64 0) x = true.
(** between 2^-e and 2^e *)
Definition ranged (e : Z) (v : R) : Prop := (bpow radix2 (-e) <= v <= bpow radix2 e)%R.
