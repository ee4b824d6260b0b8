(** * Properties C20, C21, C24-C30: pressure

    Vocabulary: [SpecR] (interacts, listed, apart, dense, surface, prescribed, solves,
    exact_solver, w_spec, sumv, ...). *)
From Coq Require Import Reals Lra.
From Verif Require Import GradientR ExplicitFacts PressureR ImplicitFacts TotalR SolverCases StepCasesF.
Open Scope R_scope.
#[local] Remove Hints F64 : typeclass_instances.

(** C20 *)
Theorem C20_minimum_pressure re rs (ps : list partR) : listed rs ps -> indexed ps -> re <= rs ->
  exists ps', @setMinimumPressure Rnum re ps = Ok ps' /\ List.length ps' = List.length ps /\
  forall i p, nth_error ps i = Some p -> exists m : R, nth_error ps' i = Some (set_minp p m) /\
    (p_type p = Ghost \/ p_type p = DummyWall -> m = p_press p) /\
    (p_type p <> Ghost -> p_type p <> DummyWall ->
       m <= p_press p /\ (forall j q, interacts re ps i p j q -> m <= p_press q) /\
       (m = p_press p \/ exists j q, interacts re ps i p j q /\ m = p_press q)).
Proof. exact (C20_lemma re rs ps). Qed.
Example C20_case : listed (3/2) trio /\ indexed trio /\ 5/4 <= 3/2 /\ exists i p j q, nth_error trio i = Some p /\ interacts (5/4) trio i p j q.
Proof.
  split; [exact trio_listed|]. split; [exact trio_indexed|]. split; [lra|]. exists 1%nat. eexists. exists 2%nat. eexists. split; [reflexivity|].
  split; [reflexivity|]. split; [discriminate|]. split; [discriminate|]. split; [discriminate|]. rewrite (euclid_at _ _ _ _ _ _ _ _ _ _ _ 1) by lra. lra.
Qed.
Print Assumptions C20_minimum_pressure.

(** C21 *)
Theorem C21_gradient_repulsive (s : @settings Rnum) rv re rs ps :
  listed rs ps -> indexed ps -> apart ps -> re <= rs -> (s_dim s = 2 \/ s_dim s = 3)%Z -> 0 < rv_n0 rv -> dense ps ->
  exists ps1 ps2, setMinimumPressure re ps = Ok ps1 /\ calPressureGradient s rv re ps1 = Ok ps2 /\ List.length ps2 = List.length ps /\
    forall i p, nth_error ps i = Some p -> exists p2, nth_error ps2 i = Some p2 /\
      (p_type p <> Fluid -> p_acc p2 = p_acc p) /\
      (p_type p = Fluid -> exists k : nat -> R,
         p_acc p2 = addR (p_acc p) (sumv ps i (fun j q => scaleR (k j) (diffR (p_pos p) (p_pos q)))) /\
         (forall j, 0 <= k j) /\
         (forall j q, nth_error ps j = Some q -> ~ interacts re ps i p j q -> k j = 0) /\
         ((forall j q, interacts re ps i p j q -> p_press q = p_press p) -> p_acc p2 = p_acc p)).
Proof. exact (C21_lemma s rv re rs ps). Qed.
Example C21_case : exists rv, newRefValues true 2 1 (3/2) = Ok rv /\ listed (3/2) trio /\ indexed trio /\ apart trio /\ s_dim set1 = 2%Z /\ 0 < rv_n0 rv /\ dense trio.
Proof.
  destruct (C09_lemma true 2 1 (3/2)) as (rv & E & P & _); [left; reflexivity|lra|lra|]. exists rv.
  exact (conj E (conj trio_listed (conj trio_indexed (conj trio_apart (conj eq_refl (conj P trio_dense)))))).
Qed.
Print Assumptions C21_gradient_repulsive.

(** C24 *)
Theorem C24_explicit_pressure (n0 c : R) (ps : list partR) : indexed ps -> 0 < n0 -> (forall p, In p ps -> 0 <= p_dens p) ->
  exists x : list R, @explicitCalc Rnum n0 c ps = Ok x /\ List.length x = List.length ps /\
    forall i p, nth_error ps i = Some p ->
      nth_error x i = Some (if (p_type p =? Ghost)%Z then 0 else Rmax 0 (c ^ 2 * p_dens p * ((p_nd p - n0) / n0))).
Proof. exact (C24_lemma n0 c ps). Qed.
Example C24_case : indexed pool /\ 0 < 4 /\ forall p, In p pool -> 0 <= p_dens p.
Proof. split; [exact pool_indexed|]. split; [lra|]. intros p [<-|[<-|[]]]; simpl; lra. Qed.
Print Assumptions C24_explicit_pressure.

(** C25 is false: one step of the shipped dam-break settings (explicit method, in
    doubles), after which the stored pressure of the first particle exceeds the pressure
    for the final positions by more than 100 Pa *)
Theorem C25_pressure_refreshed_refuted : exists (m m' : @mps F64) n0 c ns ps1 ps2 x xs p rest,
  sound m /\ m_calc m = Explicit n0 c /\ stepForward solver0 m = Ok m' /\ m_ps m' = p :: rest /\
  setNeighbors (m_ns m') (m_ps m') = Ok (ns, ps1) /\ calNumberDensity (m_settings m') (s_reN (m_settings m')) ps1 = Ok ps2 /\
  explicitCalc n0 c ps2 = Ok (x :: xs) /\ @nlt F64 (@nofZ F64 100) (@nsub F64 (p_press p) x) = true.
Proof. exact C25_refuted_lemma. Qed.
Print Assumptions C25_pressure_refreshed_refuted.

(** ... and in every step the pressures at the end are those of the first update:
    the step ends as if the second update were not there *)
Theorem C25_second_update_is_void (N : Num) S m m' n0 c : sound m -> m_calc m = Explicit n0 c -> stepForward S m = Ok m' ->
  exists ns ps ns' ps' ns'' ps'', stepMove m = Ok (ns, ps) /\ stepCollide m ns ps = Ok (ns', ps') /\ stepPressure S m ns' ps' = Ok (ns'', ps'') /\
    map p_press (m_ps m') = map p_press ps'' /\
    exists ps1 ps2, setMinimumPressure (s_reG (m_settings m)) ps'' = Ok ps1 /\ calPressureGradient (m_settings m) (m_rvG m) (s_reG (m_settings m)) ps1 = Ok ps2 /\
      m_ps m' = moveParticleUsingPressureGradient (m_settings m) ps2.
Proof. exact (C25_step_lemma S m m' n0 c). Qed.
Example C25_case : exists (m m' : @mps F64) n0 c, sound m /\ m_calc m = Explicit n0 c /\ stepForward solver0 m = Ok m'.
Proof. destruct C25_refuted_lemma as (m & m' & n0 & c & _ & _ & _ & _ & _ & _ & _ & A & B & C & _). exists m, m', n0, c. exact (conj A (conj B C)). Qed.
Print Assumptions C25_second_update_is_void.

(** C26 *)
Theorem C26_implicit_nonnegative (S : @solver Rnum) det q ps ps' x : implicitCalc S det q ps = Ok (ps', x) ->
  (forall v, In v x -> 0 <= v) /\ (sized S -> List.length x = List.length ps /\ List.length ps' = List.length ps).
Proof. exact (C26_lemma S det q ps ps' x). Qed.
Example C26_case : exists ps' x, implicitCalc diag_solver det0 ppe1 pool = Ok (ps', x).
Proof. destruct pool_solved as (ps' & x & _ & _ & H & _). eauto. Qed.
Print Assumptions C26_implicit_nonnegative.

(** in doubles too (a NaN from the solver is not negative), at the end of every step *)
Theorem C26_step_nonnegative_binary64 S (m m' : @mps F64) det q : m_calc m = Implicit det q -> stepForward S m = Ok m' ->
  forall p, In p (m_ps m') -> @nlt F64 (p_press p) (@nofZ F64 0) = false.
Proof. exact (step_nonneg S m m' det q eq_refl). Qed.
Example C26_case_binary64 : exists (m m' : @mps F64) det q, m_calc m = Implicit det q /\ stepForward solver0 m = Ok m' /\ m_ps m = cross.
Proof. exact implicit_case. Qed.
Print Assumptions C26_step_nonnegative_binary64.

(** a solver failure ends the program with exit code -1 *)
Theorem C26_failure_exits (N : Num) (S : solver) det q ps ps' d ts b : generateBC det ps = Ok (ps', d) -> ppe_setup q d ps' = Ok (ts, b) ->
  S (List.length ps') ts b = None -> implicitCalc S det q ps = Exit (-1).
Proof. exact (failure_exits S det q ps ps' d ts b). Qed.
Example C26_case_failure : exists ps' d ts b, generateBC det0 pool = Ok (ps', d) /\ ppe_setup ppe1 d ps' = Ok (ts, b) /\ no_solver (List.length ps') ts b = None.
Proof.
  destruct (C28_matrix_lemma det0 ppe1 (3/2) pool pool_listed pool_indexed pool_apart (Rle_refl (3/2))) as (ps' & d & ts & b & A & B & _).
  exists ps', d, ts, b. exact (conj A (conj B eq_refl)).
Qed.
Print Assumptions C26_failure_exits.

Theorem C26_failure_exits_step S (m : @mps Rnum) det q : ready m -> (forall n ts b, S n ts b = None) ->
  m_calc m = Implicit det q -> s_asserts (m_settings m) = false -> q_asserts q = false -> stepForward S m = Exit (-1).
Proof. exact (C26_exit_lemma S m det q). Qed.
Example C26_case_failure_step : exists m : @mps Rnum, ready m /\ (forall n ts b, no_solver n ts b = None) /\ m_calc m = Implicit det0 ppe2 /\ s_asserts (m_settings m) = false /\ q_asserts ppe2 = false.
Proof.
  destruct (machine trio (Implicit det0 ppe2) trio_indexed trio_rest) as (m & _ & RD & ES & E & _ & K). exists m. rewrite ES. split; [exact RD|]. split; [reflexivity|]. split; [exact K|]. split; reflexivity.
Qed.
Print Assumptions C26_failure_exits_step.

(** C27 *)
Theorem C27_zero_off_interior (S : @solver Rnum) det q rs (ps ps' : list partR) x i p :
  listed rs ps -> indexed ps -> apart ps -> q_reL q <= rs -> exact_solver S ->
  implicitCalc S det q ps = Ok (ps', x) -> nth_error ps' i = Some p -> prescribed p -> nth_error x i = Some 0.
Proof. exact (C27_lemma S det q rs ps ps' x i p). Qed.
Example C27_case : exists ps' x p, listed (3/2) pool /\ indexed pool /\ apart pool /\ q_reL ppe1 <= 3/2 /\ exact_solver diag_solver /\
  implicitCalc diag_solver det0 ppe1 pool = Ok (ps', x) /\ nth_error ps' 1 = Some p /\ prescribed p.
Proof.
  destruct pool_solved as (ps' & x & p & q & H & E & _ & P). exists ps', x, q. subst ps'.
  exact (conj pool_listed (conj pool_indexed (conj pool_apart (conj (Rle_refl (3/2)) (conj diag_exact (conj H (conj eq_refl P))))))).
Qed.
Print Assumptions C27_zero_off_interior.

(** C28 *)
Theorem C28_matrix det (q : @ppe Rnum) rs (ps : list partR) :
  listed rs ps -> indexed ps -> apart ps -> q_reL q <= rs -> exists ps' d ts b,
    generateBC det ps = Ok (ps', d) /\ ppe_setup q d ps' = Ok (ts, b) /\ List.length ps' = List.length ps /\ List.length b = List.length ps /\
    forall i p, nth_error ps' i = Some p ->
      (p_bc p <> Inner -> nth_error b i = Some 0 /\ forall j, entry ts (Z.of_nat i) (Z.of_nat j) = if Nat.eqb i j then 1 else 0) /\
      (p_bc p = Inner ->
         nth_error b i = Some (q_gamma q / (q_dt q) ^ 2 * ((p_nd p - q_n0N q) / q_n0N q)) /\
         (forall j pj, nth_error ps' j = Some pj -> j <> i ->
            entry ts (Z.of_nat i) (Z.of_nat j) =
            if (p_type pj =? Ghost)%Z || (p_type pj =? DummyWall)%Z then 0
            else - (2 * IZR (q_dim q) / (q_n0L q * q_lambda q) * w_spec (q_reL q) (euclid (p_pos p) (p_pos pj)) / p_dens p)) /\
         rsum (map (fun j => entry ts (Z.of_nat i) (Z.of_nat j)) (seq 0 (List.length ps))) = q_compress q / (q_dt q) ^ 2).
Proof. exact (C28_matrix_lemma det q rs ps). Qed.
Example C28_case : listed (3/2) trio /\ indexed trio /\ apart trio /\ q_reL ppe1 <= 3/2.
Proof. exact (conj trio_listed (conj trio_indexed (conj trio_apart (Rle_refl (3/2))))). Qed.
Print Assumptions C28_matrix.

Theorem C28_solution det (q : @ppe Rnum) rs (ps ps' : list partR) d ts b :
  listed rs ps -> indexed ps -> apart ps -> q_reL q <= rs ->
  0 < q_compress q -> q_dt q <> 0 -> 0 < q_n0L q -> 0 < q_lambda q -> (0 <= q_dim q)%Z ->
  (forall p, In p ps -> p_type p <> Ghost -> p_type p <> DummyWall -> 0 < p_dens p) ->
  generateBC det ps = Ok (ps', d) -> ppe_setup q d ps' = Ok (ts, b) ->
  (forall x y, solves (List.length ps) ts b x -> solves (List.length ps) ts b y -> x = y) /\
  ((forall v, In v b -> 0 <= v) -> forall x, solves (List.length ps) ts b x -> forall v, In v x -> 0 <= v).
Proof. exact (C28_solution_lemma det q rs ps ps' d ts b). Qed.
Example C28_case_solution : exists ps' d ts b, 0 < q_compress ppe1 /\ q_dt ppe1 <> 0 /\ 0 < q_n0L ppe1 /\ 0 < q_lambda ppe1 /\ (0 <= q_dim ppe1)%Z /\
  (forall p, In p trio -> p_type p <> Ghost -> p_type p <> DummyWall -> 0 < p_dens p) /\
  generateBC det0 trio = Ok (ps', d) /\ ppe_setup ppe1 d ps' = Ok (ts, b).
Proof.
  destruct (C28_matrix_lemma det0 ppe1 (3/2) trio trio_listed trio_indexed trio_apart (Rle_refl (3/2))) as (ps' & d & ts & b & A & B & _).
  exists ps', d, ts, b. split; [simpl; lra|]. split; [simpl; lra|]. split; [simpl; lra|]. split; [simpl; lra|]. split; [simpl; lia|].
  split; [intros p [<-|[<-|[<-|[]]]] _ _; simpl; lra|]. exact (conj A B).
Qed.
Print Assumptions C28_solution.

(** C29 *)
Theorem C29_free_surface det rs (ps : list partR) : listed rs ps -> exists ps', setBoundaryCondition det ps = Ok ps' /\ List.length ps' = List.length ps /\
  forall i p, nth_error ps i = Some p -> exists b, nth_error ps' i = Some (set_bc p b) /\
    (b = Ignored <-> p_type p = Ghost \/ p_type p = DummyWall) /\
    (b = FreeSurface <-> p_type p <> Ghost /\ p_type p <> DummyWall /\ surface det rs ps i p) /\
    (b = Inner <-> p_type p <> Ghost /\ p_type p <> DummyWall /\ ~ surface det rs ps i p).
Proof. exact (C29_lemma det rs ps). Qed.
Example C29_case : listed (3/2) trio.
Proof. exact trio_listed. Qed.
Print Assumptions C29_free_surface.

Theorem C29_distribution_only_removes (N : Num) n0 l0 dr ndr (ps ps1 ps2 : list particle) i p1 p2 :
  setBoundaryCondition (ByDistribution n0 l0 dr ndr) ps = Ok ps1 -> setBoundaryCondition (ByNumberDensity ndr n0) ps = Ok ps2 ->
  nth_error ps1 i = Some p1 -> nth_error ps2 i = Some p2 -> p_bc p1 = FreeSurface -> p_bc p2 = FreeSurface.
Proof. exact (C29_mono_lemma n0 l0 dr ndr ps ps1 ps2 i p1 p2). Qed.
Example C29_case_distribution : exists ps1 ps2 p1, setBoundaryCondition (@ByDistribution Rnum 4 1 (17/20) (97/100)) solo = Ok ps1 /\
  setBoundaryCondition (@ByNumberDensity Rnum (97/100) 4) solo = Ok ps2 /\ nth_error ps1 0 = Some p1 /\ p_bc p1 = FreeSurface.
Proof. exact solo_surface. Qed.
Print Assumptions C29_distribution_only_removes.

(** C30 is false with the explicit method: after a step of the shipped settings an
    inner and a surface particle (by the number density threshold) have the same
    boundary condition *)
Theorem C30_surface_reported_refuted : exists (m m' : @mps F64) n0 c p q rest,
  sound m /\ m_calc m = Explicit n0 c /\ stepForward solver0 m = Ok m' /\ m_ps m' = p :: q :: rest /\ p_type p = Fluid /\ p_type q = Fluid /\
  p_bc p = p_bc q /\
  @nle F64 (@nmul F64 (s_sd_nd (m_settings m)) n0) (p_nd p) = true /\ @nlt F64 (p_nd q) (@nmul F64 (s_sd_nd (m_settings m)) n0) = true.
Proof. exact C30_refuted_lemma. Qed.
Print Assumptions C30_surface_reported_refuted.

(** ... because no step ever changes a boundary condition (it starts as Ignored) *)
Theorem C30_explicit_never_assigns (N : Num) S n m m' n0 c i p p' : steps S n m m' -> m_calc m = Explicit n0 c ->
  nth_error (m_ps m) i = Some p -> nth_error (m_ps m') i = Some p' -> p_bc p' = p_bc p.
Proof. exact (C30_lemma S n m m' n0 c i p p'). Qed.
Example C30_case : exists (m m' : @mps Rnum) n0 c, steps no_solver 4 m m' /\ m_calc m = Explicit n0 c /\ m_ps m = trio /\ forall p, In p (m_ps m) -> p_bc p = Ignored.
Proof.
  destruct (runs trio 4 trio_indexed trio_rest) as (m & m' & RD & _ & E & _ & K & H). exists m, m', 4, 10. rewrite E. split; [exact H|]. split; [exact K|]. split; [reflexivity|].
  intros p [<-|[<-|[<-|[]]]]; reflexivity.
Qed.
Print Assumptions C30_explicit_never_assigns.
