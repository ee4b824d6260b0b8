(** * The number type of the simulation and 3-vectors

    The C++ code computes with [double] and [Eigen::Vector3d].  The model is
    written once, over the operations below, and instantiated with exact reals
    (NumR.v) and with IEEE binary64 (NumF.v). *)
From Verif Require Export Base.

Class Num := {
  num : Type;
  nofZ : Z -> num;                        (* int -> double, and literals such as 2.0 *)
  nadd : num -> num -> num;
  nsub : num -> num -> num;
  nmul : num -> num -> num;
  ndiv : num -> num -> num;
  nneg : num -> num;
  nsqrt : num -> num;
  nabs : num -> num;
  nlt : num -> num -> bool;               (* C++ <, false on NaN *)
  nle : num -> num -> bool;               (* C++ <=, false on NaN *)
  ntrunc : num -> option Z                (* truncation toward zero; None on NaN and infinities *)
}.

Declare Scope num_scope.
Delimit Scope num_scope with num.
Notation "a + b" := (nadd a b) : num_scope.
Notation "a - b" := (nsub a b) : num_scope.
Notation "a * b" := (nmul a b) : num_scope.
Notation "a / b" := (ndiv a b) : num_scope.
Notation "- a" := (nneg a) : num_scope.
Notation "# z" := (nofZ z) (at level 1, format "# z") : num_scope.

Section Vec.
Context {N : Num}.
Local Open Scope num_scope.

(** (int) x : conversion of double to int, undefined outside the range of int. *)
Definition to_int (x : num) : outcome Z :=
  match ntrunc x with
  | Some z => if in_int z then Ok z else Undef BadCast
  | None => Undef BadCast
  end.

(** std::max(a, b) and std::min(a, b) of <algorithm>. *)
Definition nmax (a b : num) : num := if nlt a b then b else a.
Definition nmin (a b : num) : num := if nlt b a then b else a.

(** Eigen::Vector3d *)
Record vec := mkV { vx : num; vy : num; vz : num }.

Definition vzero : vec := mkV #0 #0 #0.
Definition vadd (a b : vec) : vec := mkV (vx a + vx b) (vy a + vy b) (vz a + vz b).
Definition vsub (a b : vec) : vec := mkV (vx a - vx b) (vy a - vy b) (vz a - vz b).
(** vector * scalar *)
Definition vmulr (a : vec) (s : num) : vec := mkV (vx a * s) (vy a * s) (vz a * s).
(** scalar * vector *)
Definition vmull (s : num) (a : vec) : vec := mkV (s * vx a) (s * vy a) (s * vz a).
Definition vdivr (a : vec) (s : num) : vec := mkV (vx a / s) (vy a / s) (vz a / s).

(** Simplification: Eigen may add the three products in another association; the
    model adds them left to right. *)
Definition vdot (a b : vec) : num := vx a * vx b + vy a * vy b + vz a * vz b.
Definition vsqnorm (a : vec) : num := vdot a a.
Definition vnorm (a : vec) : num := nsqrt (vsqnorm a).
(** Eigen's normalized(): z = squaredNorm(); z > 0 ? v / sqrt(z) : v *)
Definition vnormalized (a : vec) : vec :=
  if nlt #0 (vsqnorm a) then vdivr a (nsqrt (vsqnorm a)) else a.
End Vec.
