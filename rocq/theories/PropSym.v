(** * Properties C69 and C70: numbering and orientation

    Vocabulary: [SpecSym] (rigid f L: f moves space rigidly, L is its linear part; axial: it maps
    axes to axes; twin: the same particles, moved by f and renumbered by sigma; moved: the
    same machine with its problem moved and renumbered; regular: no two particles at one place and no
    Fluid particle colliding with two others; same_losses: the same particles leave the
    domain), [SpecStep] (exact_solver, sensible), [SpecR] (ready, apart, listed). *)
From Coq Require Import Reals Lra String.
From Verif Require Import StageCases SymWholeR SymCases SymF StepCasesF.
Open Scope R_scope.
#[local] Remove Hints F64 : typeclass_instances.

(** C69: one time step does not depend on the numbers of the particles.  The two
    machines may use different solvers. *)
Theorem C69_numbers sigma S1 S2 (m1 m1' m2 m2' : @mps Rnum) :
  twin (fun x => x) (fun v => v) sigma (m_ps m1) (m_ps m2) -> m_settings m2 = m_settings m1 -> m_gravity m2 = m_gravity m1 -> m_calc m2 = m_calc m1 ->
  ready m1 -> ready m2 -> exact_solver S1 -> exact_solver S2 -> sensible (m_calc m1) (s_reMax (m_settings m1)) -> positive_compress (m_calc m1) ->
  (forall p, In p (m_ps m1) -> 0 < p_dens p) -> regular m1 -> stepForward S1 m1 = Ok m1' -> stepForward S2 m2 = Ok m2' ->
  twin (fun x => x) (fun v => v) sigma (m_ps m1') (m_ps m2') /\ twin_press sigma (m_ps m1') (m_ps m2') /\ m_courant m2' = m_courant m1'.
Proof. exact (C69_numbers_lemma sigma S1 S2 m1 m1' m2 m2'). Qed.
(** two particles flying into each other, numbered either way *)
Example C69_numbers_case : exists m1 m1' m2 m2', m_ps m1 = meeting /\ m_ps m2 = swapped /\
  twin (fun x => x) (fun v => v) swap (m_ps m1) (m_ps m2) /\ m_settings m2 = m_settings m1 /\ m_gravity m2 = m_gravity m1 /\ m_calc m2 = m_calc m1 /\
  ready m1 /\ ready m2 /\ sensible (m_calc m1) (s_reMax (m_settings m1)) /\ positive_compress (m_calc m1) /\ (forall p, In p (m_ps m1) -> 0 < p_dens p) /\
  regular m1 /\ stepForward no_solver m1 = Ok m1' /\ stepForward no_solver m2 = Ok m2'.
Proof. exact swapped_case. Qed.
Example C69_solver_case : exact_solver no_solver.
Proof. exact no_solver_exact. Qed.
Print Assumptions C69_numbers.

(** nor on mirror images and turns by right angles *)
Theorem C69_axes f L sigma S1 S2 (m1 m1' m2 m2' : @mps Rnum) : rigid f L -> axial L ->
  moved f L sigma m1 m2 -> ready m1 -> ready m2 -> exact_solver S1 -> exact_solver S2 -> sensible (m_calc m1) (s_reMax (m_settings m1)) -> positive_compress (m_calc m1) ->
  (forall p, In p (m_ps m1) -> 0 < p_dens p) -> regular m1 -> stepForward S1 m1 = Ok m1' -> stepForward S2 m2 = Ok m2' -> same_losses f m1 m1' m2 m2' ->
  moved f L sigma m1' m2' /\ twin_press sigma (m_ps m1') (m_ps m2') /\ m_courant m2' = m_courant m1'.
Proof. exact (C69_axes_lemma f L sigma S1 S2 m1 m1' m2 m2'). Qed.
(** the same two, turned by a right angle with the domain and gravity, numbered the other way *)
Example C69_axes_case : rigid turn turnL /\ axial turnL /\ exists m1 m1' m2 m2', m_ps m1 = meeting /\ m_ps m2 = turned /\ m_gravity m1 = @mkV Rnum 0 (-10) 0 /\ m_gravity m2 = @mkV Rnum 10 0 0 /\
  moved turn turnL swap m1 m2 /\ ready m1 /\ ready m2 /\ sensible (m_calc m1) (s_reMax (m_settings m1)) /\ positive_compress (m_calc m1) /\ (forall p, In p (m_ps m1) -> 0 < p_dens p) /\
  regular m1 /\ stepForward no_solver m1 = Ok m1' /\ stepForward no_solver m2 = Ok m2' /\ same_losses turn m1 m1' m2 m2'.
Proof. exact (conj turn_rigid (conj turn_axial turned_case)). Qed.
Print Assumptions C69_axes.

(** any number of steps *)
Theorem C69_run f L sigma S1 S2 n (m1 m1' m2 m2' : @mps Rnum) : rigid f L -> axial L ->
  moved f L sigma m1 m2 -> ready m1 -> ready m2 -> exact_solver S1 -> exact_solver S2 -> sensible (m_calc m1) (s_reMax (m_settings m1)) -> positive_compress (m_calc m1) ->
  (forall p, In p (m_ps m1) -> 0 < p_dens p) -> steps S1 n m1 m1' -> steps S2 n m2 m2' ->
  (forall k a a' b b', (k < n)%nat -> steps S1 k m1 a -> stepForward S1 a = Ok a' -> steps S2 k m2 b -> stepForward S2 b = Ok b' -> regular a /\ same_losses f a a' b b') ->
  moved f L sigma m1' m2' /\ ((0 < n)%nat -> twin_press sigma (m_ps m1') (m_ps m2') /\ m_courant m2' = m_courant m1').
Proof. exact (C69_run_lemma f L sigma S1 S2 n m1 m1' m2 m2'). Qed.
Example C69_run_case : exists m1 m1' m2 m2', m_ps m1 = falling /\ m_ps m2 = drawn /\ moved turn turnL (fun i => i) m1 m2 /\ ready m1 /\ ready m2 /\
  sensible (m_calc m1) (s_reMax (m_settings m1)) /\ positive_compress (m_calc m1) /\ (forall p, In p (m_ps m1) -> 0 < p_dens p) /\
  steps no_solver 100 m1 m1' /\ steps no_solver 100 m2 m2' /\
  (forall k a a' b b', (k < 100)%nat -> steps no_solver k m1 a -> stepForward no_solver a = Ok a' -> steps no_solver k m2 b -> stepForward no_solver b = Ok b' ->
     regular a /\ same_losses turn a a' b b').
Proof. exact drawn_case. Qed.
Print Assumptions C69_run.

(** a particle that is hit by two others moves on at a speed that depends on the order of the
    particles in the file: three in a row, the left one at 1 m/s; after one step of the
    shipped settings the right one has more than 0.25 m/s if they are numbered from left to
    right, less than 0.001 m/s if from right to left *)
Theorem C69_order_refuted : exists sigma (m1 m2 m1' m2' : @mps F64) p q,
  sound m1 /\ numeric (m_ps m1) /\ m_settings m2 = m_settings m1 /\ m_gravity m2 = m_gravity m1 /\ m_calc m2 = m_calc m1 /\
  renumbered sigma (m_ps m1) (m_ps m2) /\ stepForward solver0 m1 = Ok m1' /\ stepForward solver0 m2 = Ok m2' /\
  nth_error (m_ps m1') 2 = Some p /\ nth_error (m_ps m2') (sigma 2%nat) = Some q /\
  @nlt F64 quarter (vx (p_vel p)) = true /\ @nlt F64 (vx (p_vel q)) milli = true.
Proof. exact C69_refuted_lemma. Qed.
Print Assumptions C69_order_refuted.

(** C70: any rigid motion, if the surface is detected by the number density or not at all *)
Theorem C70_step f L sigma S1 S2 (m1 m1' m2 m2' : @mps Rnum) : rigid f L -> plain_surface (m_calc m1) ->
  moved f L sigma m1 m2 -> ready m1 -> ready m2 -> exact_solver S1 -> exact_solver S2 -> sensible (m_calc m1) (s_reMax (m_settings m1)) -> positive_compress (m_calc m1) ->
  (forall p, In p (m_ps m1) -> 0 < p_dens p) -> regular m1 -> stepForward S1 m1 = Ok m1' -> stepForward S2 m2 = Ok m2' -> same_losses f m1 m1' m2 m2' ->
  moved f L sigma m1' m2' /\ twin_press sigma (m_ps m1') (m_ps m2') /\ m_courant m2' = m_courant m1'.
Proof. exact (C70_step_lemma f L sigma S1 S2 m1 m1' m2 m2'). Qed.
(** the two particles, turned by the angle of a 3-4-5 triangle into a larger box *)
Example C70_step_case : rigid slant slant /\ exists m1 m1' m2 m2', m_ps m1 = meeting /\ m_ps m2 = slanted /\ ~ axial slant /\
  moved slant slant (fun i => i) m1 m2 /\ ready m1 /\ ready m2 /\ sensible (m_calc m1) (s_reMax (m_settings m1)) /\ positive_compress (m_calc m1) /\ (forall p, In p (m_ps m1) -> 0 < p_dens p) /\
  plain_surface (m_calc m1) /\ regular m1 /\ stepForward no_solver m1 = Ok m1' /\ stepForward no_solver m2 = Ok m2' /\ same_losses slant m1 m1' m2 m2'.
Proof. exact (conj slant_rigid slanted_case). Qed.
Print Assumptions C70_step.

Theorem C70_run f L sigma S1 S2 n (m1 m1' m2 m2' : @mps Rnum) : rigid f L -> plain_surface (m_calc m1) ->
  moved f L sigma m1 m2 -> ready m1 -> ready m2 -> exact_solver S1 -> exact_solver S2 -> sensible (m_calc m1) (s_reMax (m_settings m1)) -> positive_compress (m_calc m1) ->
  (forall p, In p (m_ps m1) -> 0 < p_dens p) -> steps S1 n m1 m1' -> steps S2 n m2 m2' ->
  (forall k a a' b b', (k < n)%nat -> steps S1 k m1 a -> stepForward S1 a = Ok a' -> steps S2 k m2 b -> stepForward S2 b = Ok b' -> regular a /\ same_losses f a a' b b') ->
  moved f L sigma m1' m2' /\ ((0 < n)%nat -> twin_press sigma (m_ps m1') (m_ps m2') /\ m_courant m2' = m_courant m1').
Proof. exact (C70_run_lemma f L sigma S1 S2 n m1 m1' m2 m2'). Qed.
Example C70_run_case : exists m1 m1' m2 m2', m_ps m1 = meeting /\ m_ps m2 = slanted /\ moved slant slant (fun i => i) m1 m2 /\ ready m1 /\ ready m2 /\
  sensible (m_calc m1) (s_reMax (m_settings m1)) /\ positive_compress (m_calc m1) /\ (forall p, In p (m_ps m1) -> 0 < p_dens p) /\ plain_surface (m_calc m1) /\
  steps no_solver 1 m1 m1' /\ steps no_solver 1 m2 m2' /\
  (forall k a a' b b', (k < 1)%nat -> steps no_solver k m1 a -> stepForward no_solver a = Ok a' -> steps no_solver k m2 b -> stepForward no_solver b = Ok b' ->
     regular a /\ same_losses slant a a' b b').
Proof.
  destruct slanted_case as (m1 & m1' & m2 & m2' & P1 & P2 & _ & MV & R1 & R2 & SN & PC & DP & PL & RG & H1 & H2 & SL). exists m1, m1', m2, m2'.
  split; [exact P1|]. split; [exact P2|]. split; [exact MV|]. split; [exact R1|]. split; [exact R2|]. split; [exact SN|]. split; [exact PC|]. split; [exact DP|]. split; [exact PL|].
  split; [econstructor; [constructor|exact H1]|]. split; [econstructor; [constructor|exact H2]|].
  intros [|k] a a' b b' K HA SA HB SB; [|lia]. inversion HA; subst. inversion HB; subst. assert (a' = m1') by congruence. assert (b' = m2') by congruence. subst. auto.
Qed.
Print Assumptions C70_run.

(** detection by distribution compares the components of the summed offsets with the
    threshold one by one: turned by the angle of a 3-4-5 triangle, a particle is no
    longer at the surface *)
Theorem C70_orientation_refuted : exists f L det re (ps qs ps' qs' : list partR) p q,
  rigid f L /\ twin f L (fun i => i) ps qs /\ twin_press (fun i => i) ps qs /\ listed re ps /\ listed re qs /\ apart ps /\
  setBoundaryCondition det ps = Ok ps' /\ setBoundaryCondition det qs = Ok qs' /\ nth_error ps' 0 = Some p /\ nth_error qs' 0 = Some q /\ p_bc p = FreeSurface /\ p_bc q = Inner.
Proof. exact C70_refuted_lemma. Qed.
Print Assumptions C70_orientation_refuted.
