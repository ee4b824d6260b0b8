(** * Vocabulary of C83 in exact arithmetic *)
From Verif Require Export SpecApart SpecR.

(** no two particles at the same place when the pressures are computed *)
Definition spread (m : @mps Rnum) : Prop :=
  forall n1 b n2 c n3 c1, stepMove m = Ok (n1, b) -> stepCollide m n1 b = Ok (n2, c) -> setNeighbors n2 c = Ok (n3, c1) -> apart c1.
