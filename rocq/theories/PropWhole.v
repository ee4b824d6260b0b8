(** * Properties C28, C35, C51-C54: construction of the simulator, the whole time step

    Vocabulary: [SpecR] (ready, usable, apart, listed, solves, exact_solver, ...) and
    [SpecStep] (swept, predicted, collided, counted, pressed, corrected, reference, ...). *)
From Coq Require Import Reals Lra.
From Verif Require Import StepR GaussR WholeR WholeCases.
Open Scope R_scope.
#[local] Remove Hints F64 : typeclass_instances.

(** C28: the pressure Poisson system has a solution (at most one by [C28_solution]) *)
Theorem C28_solvable det (q : @ppe Rnum) rs (ps ps' : list partR) d ts b :
  listed rs ps -> indexed ps -> apart ps -> q_reL q <= rs ->
  0 < q_compress q -> q_dt q <> 0 -> 0 < q_n0L q -> 0 < q_lambda q -> (0 <= q_dim q)%Z ->
  (forall p, In p ps -> p_type p <> Ghost -> p_type p <> DummyWall -> 0 < p_dens p) ->
  generateBC det ps = Ok (ps', d) -> ppe_setup q d ps' = Ok (ts, b) -> exists x, solves (List.length ps) ts b x.
Proof. exact (C28_solvable_lemma det q rs ps ps' d ts b). Qed.
Example C28_case_solvable : exists ps' d ts b, listed (3/2) trio /\ indexed trio /\ apart trio /\ q_reL ppe1 <= 3/2 /\
  0 < q_compress ppe1 /\ q_dt ppe1 <> 0 /\ 0 < q_n0L ppe1 /\ 0 < q_lambda ppe1 /\ (0 <= q_dim ppe1)%Z /\
  (forall p, In p trio -> p_type p <> Ghost -> p_type p <> DummyWall -> 0 < p_dens p) /\
  generateBC det0 trio = Ok (ps', d) /\ ppe_setup ppe1 d ps' = Ok (ts, b).
Proof.
  destruct (C28_matrix_lemma det0 ppe1 (3/2) trio trio_listed trio_indexed trio_apart (Rle_refl (3/2))) as (ps' & d & ts & b & A & B & _).
  exists ps', d, ts, b. split; [exact trio_listed|]. split; [exact trio_indexed|]. split; [exact trio_apart|]. split; [simpl; lra|].
  split; [simpl; lra|]. split; [simpl; lra|]. split; [simpl; lra|]. split; [simpl; lra|]. split; [simpl; lia|].
  split; [intros p [<-|[<-|[<-|[]]]] _ _; simpl; lra|]. exact (conj A B).
Qed.
Print Assumptions C28_solvable.

(** C51: there is an exact solver with which every implicit time step completes, unless two
    particles that are not Ghost share a place when the pressures are computed *)
Theorem C51_implicit_completes : exists S : @solver Rnum, exact_solver S /\
  forall (m : @mps Rnum) det q, ready m -> m_calc m = Implicit det q -> sensible (m_calc m) (s_reMax (m_settings m)) ->
  0 < q_compress q -> (0 <= q_dim q)%Z -> s_asserts (m_settings m) = false -> q_asserts q = false -> (forall p, In p (m_ps m) -> 0 < p_dens p) ->
  (forall n1 b n2 c n3 c1, stepMove m = Ok (n1, b) -> stepCollide m n1 b = Ok (n2, c) -> setNeighbors n2 c = Ok (n3, c1) -> apart c1) ->
  exists m', stepForward S m = Ok m'.
Proof. exact (ex_intro _ gauss (conj gauss_exact C51_implicit_lemma)). Qed.
Example C51_case_implicit : exists (m : @mps Rnum) det q, ready m /\ m_calc m = Implicit det q /\ sensible (m_calc m) (s_reMax (m_settings m)) /\
  0 < q_compress q /\ (0 <= q_dim q)%Z /\ s_asserts (m_settings m) = false /\ q_asserts q = false /\ (forall p, In p (m_ps m) -> 0 < p_dens p) /\
  (forall n1 b n2 c n3 c1, stepMove m = Ok (n1, b) -> stepCollide m n1 b = Ok (n2, c) -> setNeighbors n2 c = Ok (n3, c1) -> apart c1).
Proof. exact solo_implicit. Qed.
Print Assumptions C51_implicit_completes.

(** C35 *)
Theorem C35_gravity (s : @settings Rnum) : let g := @factoryGravity Rnum sin cos PI s in
  (s_xyzInput s = true -> g = s_gravity s) /\
  (s_xyzInput s = false -> let t := s_gAngle s * PI / 180 in
     (* (0, -norm) turned counter-clockwise by the angle t *)
     vx g = 0 * cos t - (- s_gNorm s) * sin t /\ vy g = 0 * sin t + (- s_gNorm s) * cos t /\ vz g = 0 /\
     vx g ^ 2 + vy g ^ 2 + vz g ^ 2 = s_gNorm s ^ 2).
Proof. exact (C35_lemma s). Qed.
Theorem C35_right_angles (s : @settings Rnum) : s_xyzInput s = false -> let g := @factoryGravity Rnum sin cos PI s in
  (s_gAngle s = 0 -> g = @mkV Rnum 0 (- s_gNorm s) 0) /\ (s_gAngle s = 90 -> g = @mkV Rnum (s_gNorm s) 0 0) /\ (s_gAngle s = 180 -> g = @mkV Rnum 0 (s_gNorm s) 0).
Proof. exact (C35_down_lemma s). Qed.
Example C35_case : exists s : @settings Rnum, s_xyzInput s = false /\ s_gAngle s = 90 /\ s_gNorm s = 98/10.
Proof. exists set_tilted. repeat split; reflexivity. Qed.
Print Assumptions C35_gravity.
Print Assumptions C35_right_angles.

(** C52 *)
Theorem C52_pressure_gradient (s : @settings Rnum) rv rs ps : listed rs ps -> indexed ps -> apart ps -> at_rest ps ->
  s_reG s <= rs -> (s_dim s = 2 \/ s_dim s = 3)%Z -> 0 < rv_n0 rv -> (forall p, In p ps -> 0 < p_dens p) ->
  exists ps1 ps2, setMinimumPressure (s_reG s) ps = Ok ps1 /\ calPressureGradient s rv (s_reG s) ps1 = Ok ps2 /\
    corrected s (rv_n0 rv) ps (moveParticleUsingPressureGradient s ps2) /\ at_rest (moveParticleUsingPressureGradient s ps2).
Proof. exact (C52_lemma s rv rs ps). Qed.
Example C52_case : listed (3/2) trio /\ indexed trio /\ apart trio /\ at_rest trio /\ s_reG set1 <= 3/2 /\ (s_dim set1 = 2 \/ s_dim set1 = 3)%Z /\
  0 < rv_n0 (@mkRV Rnum 4 2) /\ (forall p, In p trio -> 0 < p_dens p).
Proof.
  split; [exact trio_listed|]. split; [exact trio_indexed|]. split; [exact trio_apart|]. split; [exact trio_rest|].
  split; [simpl; lra|]. split; [left; reflexivity|]. split; [simpl; lra|]. intros p [<-|[<-|[<-|[]]]]; simpl; lra.
Qed.
Print Assumptions C52_pressure_gradient.

(** C53 *)
Theorem C53_whole_step (S : @solver Rnum) (m m' : @mps Rnum) : ready m -> exact_solver S -> sensible (m_calc m) (s_reMax (m_settings m)) ->
  (forall p, In p (m_ps m) -> 0 < p_dens p) -> stepForward S m = Ok m' ->
  let s := m_settings m in
  exists a b b1 c c1 e,
    swept (s_domain s) (m_ps m) a /\
    (apart a -> predicted s (m_gravity m) (rv_n0 (m_rvL m)) (rv_lambda (m_rvL m)) a b) /\
    swept (s_domain s) b b1 /\ collided s b1 c /\
    swept (s_domain s) c c1 /\
    (apart c1 -> counted (s_reN s) c1 e /\ pressed (m_calc m) (s_reMax s) e /\ corrected s (rv_n0 (m_rvG m)) e (m_ps m')).
Proof. exact (C53_lemma S m m'). Qed.
Example C53_case_explicit : exists m m' : @mps Rnum, ready m /\ exact_solver no_solver /\ sensible (m_calc m) (s_reMax (m_settings m)) /\
  (forall p, In p (m_ps m) -> 0 < p_dens p) /\ stepForward no_solver m = Ok m' /\ m_ps m = trio /\ apart (m_ps m).
Proof.
  destruct (runs trio 1 trio_indexed trio_rest) as (m & m' & RD & ES & EP & EG & EK & H). apply steps_one in H. exists m, m'. rewrite EP, EK.
  split; [exact RD|]. split; [intros ? ? ? ? X; discriminate X|]. split; [simpl; lra|]. split; [intros p [<-|[<-|[<-|[]]]]; simpl; lra|].
  split; [exact H|]. split; [reflexivity|exact trio_apart].
Qed.
Example C53_case_implicit : exists m m' : @mps Rnum, ready m /\ exact_solver gauss /\ sensible (m_calc m) (s_reMax (m_settings m)) /\
  (forall p, In p (m_ps m) -> 0 < p_dens p) /\ stepForward gauss m = Ok m'.
Proof.
  destruct solo_implicit as (m & det & q & A & B & C & D & E & F & G & H & I). destruct (C51_implicit_lemma m det q A B C D E F G H I) as [m' X].
  exists m, m'. exact (conj A (conj gauss_exact (conj C (conj H X)))).
Qed.
Print Assumptions C53_whole_step.

(** C54 *)
Theorem C54_factory fs fc pi (s : @settings Rnum) ps : usable s -> indexed ps -> at_rest ps ->
  ((Zfloor (xLength (s_domain s) / s_reMax s) + 3) * (Zfloor (yLength (s_domain s) / s_reMax s) + 3) * (Zfloor (zLength (s_domain s) / s_reMax s) + 3) <= int_max)%Z ->
  s_method s = "Implicit"%string \/ s_method s = "Explicit"%string ->
  exists m, factoryCreate fs fc pi s ps = Ok m /\ ready m /\ m_settings m = s /\ m_ps m = ps /\ m_gravity m = factoryGravity fs fc pi s /\
    configured s (m_calc m) /\
    reference (s_dim s) (s_l0 s) (s_reN s) (rv_n0 (m_rvN m)) (rv_lambda (m_rvN m)) /\
    reference (s_dim s) (s_l0 s) (s_reG s) (rv_n0 (m_rvG m)) (rv_lambda (m_rvG m)) /\
    reference (s_dim s) (s_l0 s) (s_reL s) (rv_n0 (m_rvL m)) (rv_lambda (m_rvL m)) /\
    m_courant m = 0 /\ m_cflErrors m = 0%nat /\
    (s_dt s <> 0 -> sensible (m_calc m) (s_reMax s)).
Proof. exact (C54_lemma fs fc pi s ps). Qed.
Example C54_case : usable set1 /\ indexed trio /\ at_rest trio /\
  ((Zfloor (xLength (s_domain set1) / s_reMax set1) + 3) * (Zfloor (yLength (s_domain set1) / s_reMax set1) + 3) * (Zfloor (zLength (s_domain set1) / s_reMax set1) + 3) <= int_max)%Z /\
  (s_method set1 = "Implicit"%string \/ s_method set1 = "Explicit"%string) /\ s_dt set1 <> 0.
Proof. split; [exact set1_usable|]. split; [exact trio_indexed|]. split; [exact trio_rest|]. split; [exact set1_fits|]. split; [simpl; auto|simpl; lra]. Qed.
Print Assumptions C54_factory.

(** no other pressure method gets as far as a time step *)
Theorem C54_unknown_method (N : Num) fs fc pi (s : settings) ps : s_asserts s = false -> s_method s <> "Implicit"%string -> s_method s <> "Explicit"%string ->
  factoryCreate fs fc pi s ps = Exit (-1).
Proof. exact (C54_exit_lemma fs fc pi s ps). Qed.
Example C54_case_unknown : exists s : @settings Rnum, s_asserts s = false /\ s_method s <> "Implicit"%string /\ s_method s <> "Explicit"%string.
Proof. exists set_tilted. repeat split; discriminate. Qed.
Print Assumptions C54_unknown_method.
