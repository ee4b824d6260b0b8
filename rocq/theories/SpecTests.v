(** * Vocabulary of C81: the repository's unit tests (test/*.cpp) *)
From Verif Require Export NeighborThms Physics Files.
Open Scope list_scope.
Open Scope Z_scope.
#[local] Remove Hints Rnum : typeclass_instances.

(** EXPECT_DOUBLE_EQ of googletest: the encodings of the two numbers, ordered like the
    numbers, differ by at most 4 *)
Definition encoding (x : f64) : option Z :=
  match x with
  | B754_zero _ => Some 0
  | B754_infinity s => Some ((if s then -1 else 1) * (2047 * 2 ^ 52))
  | B754_nan => None
  | B754_finite s m e _ => Some ((if s then -1 else 1) * ((e + 1074) * 2 ^ 52 + Zpos m))
  end.
Definition double_eq (x y : f64) : Prop := exists a b, encoding x = Some a /\ encoding y = Some b /\ Z.abs (a - b) <= 4.
(** the neighbours that test/neighbor_searcher_test.cpp:36-44 finds by brute force *)
Definition brute_force (re : f64) (ps : list partF) (i : nat) (p : partF) (j : Z) : Prop :=
  exists k q, j = Z.of_nat k /\ nth_error ps k = Some q /\ k <> i /\
    @nlt F64 (@vsqnorm F64 (@vsub F64 (p_pos p) (p_pos q))) (@nmul F64 re re) = true.

(** test/refvalues_test.cpp:7-30 with the particle distance [l0] a parameter: [a] and [b]
    are the numbers of lattice points at the distances l0 and sqrt(2) l0 *)
Definition radius_of_test (l0 : f64) : f64 := @nmul F64 (@ndiv F64 (@nofZ F64 3) (@nofZ F64 2)) l0.
Definition n0_expected (a b : Z) (l0 w1 w2 : f64) : f64 := @nadd F64 (@nmul F64 (@nofZ F64 a) w1) (@nmul F64 (@nofZ F64 b) w2).
Definition lambda_expected (a b : Z) (l0 w1 w2 : f64) : f64 :=
  @ndiv F64 (@nadd F64 (@nmul F64 (@nmul F64 (@nofZ F64 a) (@nmul F64 l0 l0)) w1)
                       (@nmul F64 (@nmul F64 (@nofZ F64 b) (@nmul F64 (@nmul F64 (@nofZ F64 2) l0) l0)) w2)) (n0_expected a b l0 w1 w2).
Definition reference_test (dim a b : Z) (l0 : f64) : Prop :=
  let re := radius_of_test l0 in
  exists rv w1 w2, @newRefValues F64 true dim l0 re = Ok rv /\ @weight F64 true l0 re = Ok w1 /\
    @weight F64 true (@nmul F64 (@nsqrt F64 (@nofZ F64 2)) l0) re = Ok w2 /\
    double_eq (rv_n0 rv) (n0_expected a b l0 w1 w2) /\ double_eq (rv_lambda rv) (lambda_expected a b l0 w1 w2).

(** operator== of doubles and of Eigen vectors *)
Definition num_eq (x y : f64) : Prop := @nle F64 x y = true /\ @nle F64 y x = true.
Definition vec_eq (x y : vecF) : Prop := num_eq (vx x) (vx y) /\ num_eq (vy x) (vy y) /\ num_eq (vz x) (vz y).
(** test/vtu_loader.cpp:48-61: what is loaded is what was written *)
Definition loads_back (written loaded : list Files.particle) : Prop :=
  Forall2 (fun p q : Files.particle => p_id q = p_id p /\ p_type q = p_type p /\ vec_eq (p_pos q) (p_pos p) /\ vec_eq (p_vel q) (p_vel p)) written loaded.
