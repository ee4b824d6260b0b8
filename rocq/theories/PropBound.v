(** * Property C84: how large the implicit pressures are, and where they are positive

    Vocabulary: [SpecBound] (solved_for, compression, fed, denser), [SpecApartR] (spread), [SpecSym] (positive_compress), [SpecStep] (sensible),
    [SpecR] (listed, apart, exact_solver, ready). *)
From Coq Require Import Reals Lra.
From Verif Require Import GaussR StageCases SolverCases WholeCases BoundR BoundSharp BoundCases SpecBound.
Open Scope R_scope.
#[local] Remove Hints F64 : typeclass_instances.

(** C84: no pressure exceeds the largest compression times gamma over the compressibility, whatever the time step and
    the densities *)
Theorem C84_bound (S : @solver Rnum) det q rs (ps ps' : list partR) y C : listed rs ps -> indexed ps -> apart ps -> q_reL q <= rs -> exact_solver S ->
  0 < q_compress q -> q_dt q <> 0 -> 0 < q_n0L q -> 0 < q_lambda q -> (0 <= q_dim q)%Z ->
  (forall p, In p ps -> p_type p <> Ghost -> p_type p <> DummyWall -> 0 < p_dens p) ->
  implicitCalc S det q ps = Ok (ps', y) -> 0 <= C ->
  (forall i p, nth_error ps i = Some p -> solved_for det rs ps i p -> q_gamma q * compression (q_n0N q) p <= q_compress q * C) ->
  forall v, In v y -> v <= C.
Proof. exact (bound_lemma S det q rs ps ps' y C). Qed.
Example C84_case_bound : exists ps' y, let ps := row3 4 4 5 in listed (3/2) ps /\ indexed ps /\ apart ps /\ q_reL ppe1 <= 3/2 /\ exact_solver gauss /\
  0 < q_compress ppe1 /\ q_dt ppe1 <> 0 /\ 0 < q_n0L ppe1 /\ 0 < q_lambda ppe1 /\ (0 <= q_dim ppe1)%Z /\
  (forall p, In p ps -> p_type p <> Ghost -> p_type p <> DummyWall -> 0 < p_dens p) /\ implicitCalc gauss det_none ppe1 ps = Ok (ps', y) /\
  (forall i p, nth_error ps i = Some p -> solved_for det_none (3/2) ps i p -> q_gamma ppe1 * compression (q_n0N ppe1) p <= q_compress ppe1 * (1/10)).
Proof.
  destruct (row3_solved 4 4 5) as (ps' & y & H). exists ps', y. cbv zeta.
  split; [apply row3_listed|]. split; [apply row3_indexed|]. split; [apply row3_apart|]. split; [simpl; lra|]. split; [exact gauss_exact|]. split; [simpl; lra|]. split; [simpl; lra|]. split; [simpl; lra|]. split; [simpl; lra|]. split; [simpl; lia|].
  split; [apply row3_dense|]. split; [exact H|]. intros [|[|[|[|i]]]] p P _; cbn [nth_error row3] in P; try discriminate; injection P as <-; unfold compression; simpl; lra.
Qed.
Print Assumptions C84_bound.

(** C84: a group that is solved for, and that has every particle within the radius of the Laplacian in it: its
    pressures are between those of its least and of its largest compression *)
Theorem C84_between (S : @solver Rnum) det q rs (ps ps' : list partR) y C1 C2 (group : nat -> bool) : listed rs ps -> indexed ps -> apart ps -> q_reL q <= rs -> exact_solver S ->
  0 < q_compress q -> q_dt q <> 0 -> 0 < q_n0L q -> 0 < q_lambda q -> (0 <= q_dim q)%Z ->
  (forall p, In p ps -> p_type p <> Ghost -> p_type p <> DummyWall -> 0 < p_dens p) ->
  (forall i p, nth_error ps i = Some p -> group i = true -> solved_for det rs ps i p /\ q_compress q * C1 <= q_gamma q * compression (q_n0N q) p <= q_compress q * C2) ->
  (forall i p j r, nth_error ps i = Some p -> nth_error ps j = Some r -> group i = true -> i <> j -> p_type r <> Ghost -> p_type r <> DummyWall -> euclid (p_pos p) (p_pos r) < q_reL q -> group j = true) ->
  implicitCalc S det q ps = Ok (ps', y) -> forall i, (i < List.length ps)%nat -> group i = true -> exists v, nth_error y i = Some v /\ Rmax 0 C1 <= v <= Rmax 0 C2.
Proof. exact (levels_between S det q rs ps ps' y C1 C2 group). Qed.
Example C84_case_between : exists ps' y, let ps := row3 5 5 6 in let group := fun _ : nat => true in listed (3/2) ps /\ indexed ps /\ apart ps /\ q_reL ppe1 <= 3/2 /\ exact_solver gauss /\
  0 < q_compress ppe1 /\ q_dt ppe1 <> 0 /\ 0 < q_n0L ppe1 /\ 0 < q_lambda ppe1 /\ (0 <= q_dim ppe1)%Z /\
  (forall p, In p ps -> p_type p <> Ghost -> p_type p <> DummyWall -> 0 < p_dens p) /\
  (forall i p, nth_error ps i = Some p -> group i = true -> solved_for det_none (3/2) ps i p /\ q_compress ppe1 * (1/10) <= q_gamma ppe1 * compression (q_n0N ppe1) p <= q_compress ppe1 * (1/5)) /\
  (forall i p j r, nth_error ps i = Some p -> nth_error ps j = Some r -> group i = true -> i <> j -> p_type r <> Ghost -> p_type r <> DummyWall -> euclid (p_pos p) (p_pos r) < q_reL ppe1 -> group j = true) /\
  implicitCalc gauss det_none ppe1 ps = Ok (ps', y).
Proof.
  destruct (row3_solved 5 5 6) as (ps' & y & H). exists ps', y. cbv zeta.
  split; [apply row3_listed|]. split; [apply row3_indexed|]. split; [apply row3_apart|]. split; [simpl; lra|]. split; [exact gauss_exact|]. split; [simpl; lra|]. split; [simpl; lra|]. split; [simpl; lra|]. split; [simpl; lra|]. split; [simpl; lia|].
  split; [apply row3_dense|]. split; [|split; [reflexivity|exact H]]. intros i p P _. split; [apply row3_inner; [lra|lra|lra|exact P]|].
  destruct i as [|[|[|[|i]]]]; cbn [nth_error row3] in P; try discriminate; injection P as <-; unfold compression; simpl; lra.
Qed.
Print Assumptions C84_between.

(** C84: so with one compression the pressure of such a group is uniform, and it is the bound (0 if it is stretched) *)
Theorem C84_attained (S : @solver Rnum) det q rs (ps ps' : list partR) y C (group : nat -> bool) : listed rs ps -> indexed ps -> apart ps -> q_reL q <= rs -> exact_solver S ->
  0 < q_compress q -> q_dt q <> 0 -> 0 < q_n0L q -> 0 < q_lambda q -> (0 <= q_dim q)%Z ->
  (forall p, In p ps -> p_type p <> Ghost -> p_type p <> DummyWall -> 0 < p_dens p) ->
  (forall i p, nth_error ps i = Some p -> group i = true -> solved_for det rs ps i p /\ q_gamma q * compression (q_n0N q) p = q_compress q * C) ->
  (forall i p j r, nth_error ps i = Some p -> nth_error ps j = Some r -> group i = true -> i <> j -> p_type r <> Ghost -> p_type r <> DummyWall -> euclid (p_pos p) (p_pos r) < q_reL q -> group j = true) ->
  implicitCalc S det q ps = Ok (ps', y) -> forall i, (i < List.length ps)%nat -> group i = true -> nth_error y i = Some (Rmax 0 C).
Proof. exact (attained S det q rs ps ps' y C group). Qed.
Example C84_case_attained : exists ps' y, let ps := row3 5 5 5 in let group := fun _ : nat => true in listed (3/2) ps /\ indexed ps /\ apart ps /\ q_reL ppe1 <= 3/2 /\ exact_solver gauss /\
  0 < q_compress ppe1 /\ q_dt ppe1 <> 0 /\ 0 < q_n0L ppe1 /\ 0 < q_lambda ppe1 /\ (0 <= q_dim ppe1)%Z /\
  (forall p, In p ps -> p_type p <> Ghost -> p_type p <> DummyWall -> 0 < p_dens p) /\
  (forall i p, nth_error ps i = Some p -> group i = true -> solved_for det_none (3/2) ps i p /\ q_gamma ppe1 * compression (q_n0N ppe1) p = q_compress ppe1 * (1/10)) /\
  (forall i p j r, nth_error ps i = Some p -> nth_error ps j = Some r -> group i = true -> i <> j -> p_type r <> Ghost -> p_type r <> DummyWall -> euclid (p_pos p) (p_pos r) < q_reL ppe1 -> group j = true) /\
  implicitCalc gauss det_none ppe1 ps = Ok (ps', y).
Proof.
  destruct (row3_solved 5 5 5) as (ps' & y & H). exists ps', y. cbv zeta.
  split; [apply row3_listed|]. split; [apply row3_indexed|]. split; [apply row3_apart|]. split; [simpl; lra|]. split; [exact gauss_exact|]. split; [simpl; lra|]. split; [simpl; lra|]. split; [simpl; lra|]. split; [simpl; lra|]. split; [simpl; lia|].
  split; [apply row3_dense|]. split; [|split; [reflexivity|exact H]]. intros i p P _. split; [apply row3_inner; [lra|lra|lra|exact P]|].
  destruct i as [|[|[|[|i]]]]; cbn [nth_error row3] in P; try discriminate; injection P as <-; unfold compression; simpl; lra.
Qed.
Print Assumptions C84_attained.

(** C84: where no particle is stretched, the pressure is positive exactly at the compressed particles and at those joined
    to them by chains of particles within the radius of the Laplacian *)
Theorem C84_support (S : @solver Rnum) det q rs (ps ps' : list partR) y : listed rs ps -> indexed ps -> apart ps -> q_reL q <= rs -> exact_solver S ->
  0 < q_compress q -> q_dt q <> 0 -> 0 < q_n0L q -> 0 < q_lambda q -> (0 < q_dim q)%Z -> 0 < q_gamma q -> 0 < q_n0N q ->
  (forall p, In p ps -> p_type p <> Ghost -> p_type p <> DummyWall -> 0 < p_dens p) ->
  (forall i p, nth_error ps i = Some p -> solved_for det rs ps i p -> q_n0N q <= p_nd p) ->
  implicitCalc S det q ps = Ok (ps', y) -> forall i v, nth_error y i = Some v -> (0 < v <-> fed det rs (q_n0N q) (q_reL q) ps i).
Proof. exact (support_lemma S det q rs ps ps' y). Qed.
(** the Wall particle at the end of a row of three is compressed: all three pressures are positive *)
Example C84_case_support : exists ps' y v, let ps := row3 4 4 5 in listed (3/2) ps /\ indexed ps /\ apart ps /\ q_reL ppe1 <= 3/2 /\ exact_solver gauss /\
  0 < q_compress ppe1 /\ q_dt ppe1 <> 0 /\ 0 < q_n0L ppe1 /\ 0 < q_lambda ppe1 /\ (0 < q_dim ppe1)%Z /\ 0 < q_gamma ppe1 /\ 0 < q_n0N ppe1 /\
  (forall p, In p ps -> p_type p <> Ghost -> p_type p <> DummyWall -> 0 < p_dens p) /\
  (forall i p, nth_error ps i = Some p -> solved_for det_none (3/2) ps i p -> q_n0N ppe1 <= p_nd p) /\
  implicitCalc gauss det_none ppe1 ps = Ok (ps', y) /\ nth_error y 0 = Some v /\ fed det_none (3/2) (q_n0N ppe1) (q_reL ppe1) ps 0.
Proof.
  destruct (row3_solved 4 4 5) as (ps' & y & H). destruct (calc_balanced gauss det_none ppe1 (3/2) _ _ _ (row3_listed 4 4 5) (row3_indexed 4 4 5) (row3_apart 4 4 5) (Rle_refl (3/2)) gauss_exact H) as (_ & x & _ & V).
  exists ps', y, (Rmax 0 (x 0%nat)). cbv zeta.
  split; [apply row3_listed|]. split; [apply row3_indexed|]. split; [apply row3_apart|]. split; [simpl; lra|]. split; [exact gauss_exact|]. split; [simpl; lra|]. split; [simpl; lra|]. split; [simpl; lra|]. split; [simpl; lra|]. split; [simpl; lia|].
  split; [simpl; lra|]. split; [simpl; lra|]. split; [apply row3_dense|]. split; [|split; [exact H|split; [exact (V 0%nat ltac:(cbn; lia))|exact row3_fed]]].
  intros [|[|[|[|i]]]] p P _; cbn [nth_error row3] in P; try discriminate; injection P as <-; simpl; lra.
Qed.
Print Assumptions C84_support.

(** C84: more compression anywhere lowers the pressure nowhere *)
Theorem C84_monotone (S1 S2 : @solver Rnum) det q rs (ps ps' qs qs' : list partR) y z : listed rs ps -> indexed ps -> apart ps -> listed rs qs -> indexed qs -> q_reL q <= rs ->
  exact_solver S1 -> exact_solver S2 ->
  0 < q_compress q -> q_dt q <> 0 -> 0 < q_n0L q -> 0 < q_lambda q -> (0 <= q_dim q)%Z -> 0 <= q_gamma q -> 0 < q_n0N q ->
  (forall p, In p ps -> p_type p <> Ghost -> p_type p <> DummyWall -> 0 < p_dens p) -> denser det rs ps qs ->
  implicitCalc S1 det q ps = Ok (ps', y) -> implicitCalc S2 det q qs = Ok (qs', z) -> Forall2 Rle y z.
Proof. exact (monotone_lemma S1 S2 det q rs ps ps' qs qs' y z). Qed.
Example C84_case_monotone : exists ps' y qs' z, let ps := row3 4 4 4 in let qs := row3 4 4 5 in listed (3/2) ps /\ indexed ps /\ apart ps /\ listed (3/2) qs /\ indexed qs /\ q_reL ppe1 <= 3/2 /\
  exact_solver gauss /\ (forall p, In p ps -> p_type p <> Ghost -> p_type p <> DummyWall -> 0 < p_dens p) /\ denser det_none (3/2) ps qs /\
  implicitCalc gauss det_none ppe1 ps = Ok (ps', y) /\ implicitCalc gauss det_none ppe1 qs = Ok (qs', z).
Proof.
  destruct (row3_solved 4 4 4) as (ps' & y & H). destruct (row3_solved 4 4 5) as (qs' & z & K). exists ps', y, qs', z. cbv zeta.
  split; [apply row3_listed|]. split; [apply row3_indexed|]. split; [apply row3_apart|]. split; [apply row3_listed|]. split; [apply row3_indexed|]. split; [simpl; lra|]. split; [exact gauss_exact|]. split; [apply row3_dense|].
  split; [exact row3_denser|]. split; [exact H|exact K].
Qed.
Print Assumptions C84_monotone.

(** C84: the pressures at the end of a step are bounded by the number densities found there *)
Theorem C84_step (S : @solver Rnum) (m m' : @mps Rnum) det q C : ready m -> exact_solver S -> m_calc m = Implicit det q ->
  sensible (m_calc m) (s_reMax (m_settings m)) -> positive_compress (m_calc m) -> (forall p, In p (m_ps m) -> 0 < p_dens p) -> spread m -> stepForward S m = Ok m' -> 0 <= C ->
  (forall p, In p (m_ps m') -> p_type p <> Ghost -> p_type p <> DummyWall -> q_gamma q * compression (q_n0N q) p <= q_compress q * C) ->
  forall p, In p (m_ps m') -> 0 <= p_press p <= C.
Proof. exact (step_bound S m m' det q C). Qed.
(** two Wall particles a fifth of the particle distance apart *)
Example C84_case_step : exists m m', m_ps m = tight /\ ready m /\ exact_solver gauss /\ m_calc m = Implicit det_none ppe2 /\ sensible (m_calc m) (s_reMax (m_settings m)) /\ positive_compress (m_calc m) /\
  (forall p, In p (m_ps m) -> 0 < p_dens p) /\ spread m /\ stepForward gauss m = Ok m' /\
  (forall p, In p (m_ps m') -> p_type p <> Ghost -> p_type p <> DummyWall -> q_gamma ppe2 * compression (q_n0N ppe2) p <= q_compress ppe2 * (1/4)).
Proof. exact tight_case. Qed.
Print Assumptions C84_step.
