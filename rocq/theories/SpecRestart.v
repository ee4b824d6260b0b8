(** * Vocabulary of the statements about running again from an output file *)
From Verif Require Export SpecLoader SpecResume.
Open Scope Z_scope.

(** a particle that the prof format prints without loss *)
Definition exact (x : f64) : Prop := as_printed x x.
Definition printable (p : Files.particle) : Prop := writable p /\ all3 exact (p_pos p) /\ all3 exact (p_vel p).
