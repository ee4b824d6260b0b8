(** * Vocabulary: how a simulation in doubles can end *)
From Verif Require Export SpecSim SpecLoader NeighborThms.
Open Scope Z_scope.
#[local] Remove Hints Rnum : typeclass_instances.

(** a particle that takes part, with a coordinate that is NaN, and no coordinate below the
    minimum or above the maximum of the domain.  (One with a NaN and another coordinate
    outside is turned into a ghost.) *)
Definition trapped (d : domF) (p : partF) : Prop := p_type p <> Ghost /\ ~ outside d (p_pos p) /\ ~ no_nan (p_pos p).
(** in the step that begins with [m], the neighbour search meets such a particle: at the
    start, after the prediction, or after the collisions *)
Definition meets_nan (m : @mps F64) : Prop :=
  exists ns ps, ((ns = m_ns m /\ ps = m_ps m) \/ stepMove m = Ok (ns, ps) \/ exists ns0 ps0, stepMove m = Ok (ns0, ps0) /\ stepCollide m ns0 ps0 = Ok (ns, ps)) /\
    Exists (trapped (s_domain (m_settings m))) ps.
(** assertions are compiled in *)
Definition asserts (m : @mps F64) : bool :=
  s_asserts (m_settings m) || match m_calc m with Implicit _ q => q_asserts q | Explicit _ _ => false end.
(** the times and the step counter of the simulation [st0] after [k] steps *)
Definition agrees (st0 : @sim F64) (k : nat) (st : @sim F64) : Prop :=
  si_start st = si_start st0 /\ si_time st = time_at (si_start st0) (si_dt st0) k /\ si_end st = si_end st0 /\ si_dt st = si_dt st0 /\ si_step st = Z.of_nat k.
(** The ends of a simulation of at most [n] steps: completed; or in some step an assertion
    fails, the solver gives up, or a coordinate that is NaN is converted to int *)
Definition ends (S : solver) (st0 : @sim F64) (n : nat) (o : outcome (@sim F64)) : Prop :=
  (exists st', o = Ok st' /\ exists k, (k <= n)%nat /\ si_step st' = Z.of_nat k /\ steps S k (si_mps st0) (si_mps st')) \/
  exists k m, (k < n)%nat /\ steps S k (si_mps st0) m /\
    ((asserts (si_mps st0) = true /\ o = AssertFail) \/ ((exists j ts b, S j ts b = None) /\ o = Exit (-1)) \/ (meets_nan m /\ o = Undef BadCast)).
