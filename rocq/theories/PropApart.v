(** * Property C83: particles out of reach have no influence

    Vocabulary: [SpecApart] (group, same_group, never_reached), [SpecApartR] (spread), [SpecResume] (same_setup),
    [SpecR] (ready, exact_solver), [Spec] (sound, steps). *)
From Coq Require Import Reals.
From Verif Require Import GaussR ApartF ApartCases SolverCases SpecSym SpecApart SpecApartR.
Open Scope R_scope.

(** C83: the explicit method in doubles.  A group of particles of which no other particle comes within reach (at any
    search of the run) does, bit by bit, what it does without the others; the run without the others completes if the
    one with them does *)
Theorem C83_explicit_binary64 e S1 S2 k (m r m' : @mps F64) n0 c : radiusF (s_reMax (m_settings m)) -> proper_domainF (s_domain (m_settings m)) ->
  sound m -> sound r -> same_setup m r -> group e (m_ps m) (m_ps r) -> m_calc m = Explicit n0 c ->
  (forall j mj, (j < k)%nat -> steps S1 j m mj -> never_reached e (List.length (m_ps r)) mj) -> steps S1 k m m' ->
  exists r', steps S2 k r r' /\ same_setup m' r' /\ group e (m_ps m') (m_ps r') /\ ((0 < k)%nat -> same_group e (m_ps m') (m_ps r')).
Proof. exact (group_run_F e S1 S2 k m r m' n0 c). Qed.
(** five particles that push each other away, a Wall particle before and a falling one behind them, two steps *)
Example C83_case_binary64 : exists (m r m1 m' : @mps F64) n0 c, m_ps m = drops7 /\ m_ps r = drop5 /\
  radiusF (s_reMax (m_settings m)) /\ proper_domainF (s_domain (m_settings m)) /\ sound m /\ sound r /\ same_setup m r /\ group S (m_ps m) (m_ps r) /\ m_calc m = Explicit n0 c /\
  (forall j mj, (j < 2)%nat -> steps solver0 j m mj -> never_reached S (List.length (m_ps r)) mj) /\ steps solver0 2 m m' /\
  stepForward solver0 m = Ok m1 /\ moved_b m m1 = true.
Proof. exact drops_case. Qed.
Print Assumptions C83_explicit_binary64.

(** C83: the explicit method in exact arithmetic *)
Theorem C83_explicit e S1 S2 k (m r m' : @mps Rnum) n0 c : ready m -> sound r -> same_setup m r -> group e (m_ps m) (m_ps r) -> m_calc m = Explicit n0 c ->
  (forall j mj, (j < k)%nat -> steps S1 j m mj -> never_reached e (List.length (m_ps r)) mj) -> steps S1 k m m' ->
  exists r', steps S2 k r r' /\ same_setup m' r' /\ group e (m_ps m') (m_ps r') /\ ((0 < k)%nat -> same_group e (m_ps m') (m_ps r')).
Proof. exact (group_run_R e S1 S2 k m r m' n0 c). Qed.
Example C83_case_explicit k : exists (m r m' : @mps Rnum) n0 c, m_ps m = walls4 /\ m_ps r = walls2 /\ ready m /\ sound r /\ same_setup m r /\ group odd_one (m_ps m) (m_ps r) /\ m_calc m = Explicit n0 c /\
  (forall j mj, (j < k)%nat -> steps no_solver j m mj -> never_reached odd_one (List.length (m_ps r)) mj) /\ steps no_solver k m m'.
Proof. exact (walls_explicit k). Qed.
Print Assumptions C83_explicit.

(** C83: either method, in exact arithmetic, whatever exact solvers the two runs use *)
Theorem C83_implicit e (S1 S2 : @solver Rnum) k (m r m' r' : @mps Rnum) : ready m -> ready r -> exact_solver S1 -> exact_solver S2 ->
  sensible (m_calc m) (s_reMax (m_settings m)) -> positive_compress (m_calc m) -> (forall p, In p (m_ps m) -> 0 < p_dens p) ->
  same_setup m r -> group e (m_ps m) (m_ps r) ->
  (forall j mj, (j < k)%nat -> steps S1 j m mj -> never_reached e (List.length (m_ps r)) mj /\ spread mj) ->
  steps S1 k m m' -> steps S2 k r r' ->
  same_setup m' r' /\ group e (m_ps m') (m_ps r') /\ ((0 < k)%nat -> same_group e (m_ps m') (m_ps r')).
Proof. exact (group_run_both e S1 S2 k m r m' r'). Qed.
(** two pairs of Wall particles, numbered alternately *)
Example C83_case_implicit k : exists m r m' r', m_ps m = walls4 /\ m_ps r = walls2 /\ ready m /\ ready r /\ exact_solver gauss /\
  sensible (m_calc m) (s_reMax (m_settings m)) /\ positive_compress (m_calc m) /\ (exists det q, m_calc m = Implicit det q) /\ (forall p, In p (m_ps m) -> 0 < p_dens p) /\
  same_setup m r /\ group odd_one (m_ps m) (m_ps r) /\
  (forall j mj, (j < k)%nat -> steps gauss j m mj -> never_reached odd_one (List.length (m_ps r)) mj /\ spread mj) /\ steps gauss k m m' /\ steps gauss k r r'.
Proof. exact (walls_case k). Qed.
Print Assumptions C83_implicit.
