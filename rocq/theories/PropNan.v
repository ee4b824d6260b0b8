(** * Property C86: coordinates that are not numbers

    Vocabulary: [SpecEnds] (trapped: a particle that takes part, with a coordinate that is NaN,
    and none that is outside the domain; meets_nan: one of the three searches of a step meets
    such a particle; asserts), [SpecNeighbor] (outside, numeric).  Where meets_nan occurs in
    C68, C77, C79 and C85, the outcome is the one that is proved here. *)
From Coq Require Import String.
From Flocq Require Import BinarySingleNaN.
From Verif Require Import NeighborF NeighborThms NeighborCases StepCasesF SimCases LoaderCases EndingsCases NanFacts TwinFacts TwinLost TwinRun NanCases SpecEnds.
Open Scope list_scope.
Open Scope Z_scope.
#[local] Remove Hints Rnum : typeclass_instances.

(** The search in doubles, for every set of particles: it converts a NaN to int if there is a
    trapped particle, and completes if there is none. *)
Theorem C86_search (re : f64) d ns (ps : list partF) : radiusF re -> proper_domainF d -> @used_searcher F64 re d (List.length ps) ns -> indexed ps ->
  (Exists (trapped d) ps -> setNeighbors ns ps = Undef BadCast) /\ (~ Exists (trapped d) ps -> exists ns' ps', setNeighbors ns ps = Ok (ns', ps')).
Proof. exact (search_ends re d ns ps). Qed.
Example C86_search_case : radiusF re31 /\ proper_domainF dam /\ (exists ns, @used_searcher F64 re31 dam (List.length NeighborCases.lost) ns) /\ indexed NeighborCases.lost /\ Exists (trapped dam) NeighborCases.lost.
Proof. exact (conj re31_radius (conj dam_proper (conj lost_used (conj lost_indexed lost_trapped)))). Qed.
(** a particle whose x is NaN and whose y is outside: the search completes; it is a ghost afterwards *)
Example C86_ghost_case : indexed gone /\ (~ Exists (trapped dam) gone /\ ~ numeric gone) /\
  exists ns ns' p q, @newSearcher F64 re31 dam 2 = Ok ns /\ @setNeighbors F64 ns gone = Ok (ns', [p; q]) /\ p_type q = Ghost.
Proof. exact (conj gone_indexed (conj gone_free gone_ghost)). Qed.
Print Assumptions C86_search.

(** A step in doubles has undefined behaviour exactly if one of its three searches meets a
    trapped particle. *)
Theorem C86_step S (m : @mps F64) : sound m -> sized S -> radiusF (s_reMax (m_settings m)) -> proper_domainF (s_domain (m_settings m)) ->
  ((exists u, stepForward S m = Undef u) <-> meets_nan m) /\ (meets_nan m -> stepForward S m = Undef BadCast) /\
  (~ meets_nan m -> (exists m', stepForward S m = Ok m') \/ (asserts m = true /\ stepForward S m = AssertFail) \/ ((exists n ts b, S n ts b = None) /\ stepForward S m = Exit (-1))).
Proof. exact (step_undef S m). Qed.
Example C86_step_case : sized solver0 /\
  (exists m : @mps F64, sound m /\ radiusF (s_reMax (m_settings m)) /\ proper_domainF (s_domain (m_settings m)) /\ meets_nan m) /\
  (exists m : @mps F64, sound m /\ radiusF (s_reMax (m_settings m)) /\ proper_domainF (s_domain (m_settings m)) /\ ~ meets_nan m).
Proof. exact (conj solver0_sized (conj nowhere_meets cross_free)). Qed.
Print Assumptions C86_step.

(** Numbers alone do not protect from it.  Without assertions, a fluid particle in the place of
    another, with its velocity: the weight of the pair is infinite, the product with the
    difference of the velocities is NaN, and the next search converts it to int. *)
Theorem C86_twins (m : @mps F64) i j p q : sound m -> radiusF (s_reMax (m_settings m)) -> proper_domainF (s_domain (m_settings m)) ->
  s_asserts (m_settings m) = false -> @nlt F64 (B754_zero false) (s_reL (m_settings m)) = true ->
  nth_error (m_ps m) i = Some p -> nth_error (m_ps m) j = Some q -> i <> j -> p_type p = Fluid -> p_type q <> Ghost ->
  p_pos q = p_pos p -> p_vel q = p_vel p -> ~ outside (s_domain (m_settings m)) (p_pos p) -> meets_nan m.
Proof. exact (twins_meet m i j p q). Qed.
Example C86_twins_case : exists (m : @mps F64) p q, sound m /\ radiusF (s_reMax (m_settings m)) /\ proper_domainF (s_domain (m_settings m)) /\
  s_asserts (m_settings m) = false /\ @nlt F64 (B754_zero false) (s_reL (m_settings m)) = true /\
  nth_error (m_ps m) 0 = Some p /\ nth_error (m_ps m) 1 = Some q /\ p_type p = Fluid /\ p_type q <> Ghost /\
  p_pos q = p_pos p /\ p_vel q = p_vel p /\ ~ outside (s_domain (m_settings m)) (p_pos p) /\ numeric (m_ps m).
Proof. exact twins_case. Qed.
Print Assumptions C86_twins.

(** With different velocities, too, the fluid particle does not get through the step: if the
    step completes, the particle is a ghost afterwards.  No coordinate of it is finite after the
    prediction; an infinite one is outside the domain, so the next search removes it. *)
Theorem C86_pair_lost S (m m' : @mps F64) i j p q : sound m -> radiusF (s_reMax (m_settings m)) -> proper_domainF (s_domain (m_settings m)) ->
  s_asserts (m_settings m) = false -> @nlt F64 (B754_zero false) (s_reL (m_settings m)) = true ->
  nth_error (m_ps m) i = Some p -> nth_error (m_ps m) j = Some q -> i <> j -> p_type p = Fluid -> p_type q <> Ghost ->
  p_pos q = p_pos p -> ~ outside (s_domain (m_settings m)) (p_pos p) ->
  stepForward S m = Ok m' -> exists p', nth_error (m_ps m') i = Some p' /\ p_type p' = Ghost.
Proof. exact (twins_lost S m m' i j p q). Qed.
(** both methods: a step that completes, from numbers, with all particles in the domain *)
Example C86_pair_lost_case meth : meth = "Implicit"%string \/ meth = "Explicit"%string ->
  exists (m m' : @mps F64) p q, s_method (m_settings m) = meth /\ sound m /\ radiusF (s_reMax (m_settings m)) /\ proper_domainF (s_domain (m_settings m)) /\
    s_asserts (m_settings m) = false /\ @nlt F64 (B754_zero false) (s_reL (m_settings m)) = true /\
    nth_error (m_ps m) 0 = Some p /\ nth_error (m_ps m) 1 = Some q /\ p_type p = Fluid /\ p_type q <> Ghost /\
    p_pos q = p_pos p /\ ~ outside (s_domain (m_settings m)) (p_pos p) /\ numeric (m_ps m) /\ stepForward solver0 m = Ok m'.
Proof. exact (pair_lost_case meth). Qed.
Print Assumptions C86_pair_lost.

(** With assertions the step stops at the pair, whatever its velocities. *)
Theorem C86_pair_assert S (m : @mps F64) i j p q : sound m -> radiusF (s_reMax (m_settings m)) -> proper_domainF (s_domain (m_settings m)) ->
  s_asserts (m_settings m) = true -> @nlt F64 (B754_zero false) (s_reL (m_settings m)) = true -> numeric (m_ps m) ->
  nth_error (m_ps m) i = Some p -> nth_error (m_ps m) j = Some q -> i <> j -> p_type p = Fluid -> p_type q <> Ghost ->
  p_pos q = p_pos p -> ~ outside (s_domain (m_settings m)) (p_pos p) -> stepForward S m = AssertFail.
Proof. exact (twins_assert S m i j p q). Qed.
Example C86_pair_assert_case : exists (m : @mps F64) p q, sound m /\ radiusF (s_reMax (m_settings m)) /\ proper_domainF (s_domain (m_settings m)) /\
  s_asserts (m_settings m) = true /\ @nlt F64 (B754_zero false) (s_reL (m_settings m)) = true /\ numeric (m_ps m) /\
  nth_error (m_ps m) 0 = Some p /\ nth_error (m_ps m) 1 = Some q /\ p_type p = Fluid /\ p_type q <> Ghost /\
  p_pos q = p_pos p /\ ~ outside (s_domain (m_settings m)) (p_pos p).
Proof. exact pair_assert_case. Qed.
Print Assumptions C86_pair_assert.

(** So no input with a pair of one place and one velocity gets through its first step. *)
Theorem C86_listed_twice parse as_int as_dbl as_bool cell_int cell_dbl fsin fcos M_PI big dbg S real clk fuel setting out fs f1 i m a b p q :
  load parse as_int as_dbl as_bool cell_int cell_dbl dbg setting out fs = (f1, Ok i) -> room out f1 -> factoryCreate fsin fcos M_PI (i_settings i) (i_particles i) = Ok m ->
  (s_vtkBinary (i_settings i) = true -> Z.of_nat (List.length (i_particles i)) * 3 <= int_max) ->
  radiusF (s_reMax (i_settings i)) -> proper_domainF (s_domain (i_settings i)) -> s_asserts (i_settings i) = false -> @nlt F64 (B754_zero false) (s_reL (i_settings i)) = true ->
  @nlt F64 (i_start i) (s_endTime (i_settings i)) = true ->
  nth_error (i_particles i) a = Some p -> nth_error (i_particles i) b = Some q -> a <> b -> p_type p = Fluid -> p_type q <> Ghost ->
  p_pos q = p_pos p -> p_vel q = p_vel p -> ~ outside (s_domain (i_settings i)) (p_pos p) ->
  snd (program parse as_int as_dbl as_bool cell_int cell_dbl fsin fcos M_PI big dbg S real clk (Datatypes.S fuel) setting out fs) = Undef BadCast.
Proof. exact (listed_twice parse as_int as_dbl as_bool cell_int cell_dbl fsin fcos M_PI big dbg S real clk fuel setting out fs f1 i m a b p q). Qed.
(** the release build on a file with two particles in one place *)
Example C86_listed_twice_case : exists f1 i m p q, load parseE read_int read_dbl read_bool read_int read_dbl false setting_path out_dir twice_disk = (f1, Ok i) /\
  room out_dir f1 /\ @factoryCreate F64 fid fid c20 (i_settings i) (i_particles i) = Ok m /\
  Z.of_nat (List.length (i_particles i)) * 3 <= int_max /\
  radiusF (s_reMax (i_settings i)) /\ proper_domainF (s_domain (i_settings i)) /\ s_asserts (i_settings i) = false /\ @nlt F64 (B754_zero false) (s_reL (i_settings i)) = true /\
  @nlt F64 (i_start i) (s_endTime (i_settings i)) = true /\
  nth_error (i_particles i) 0 = Some p /\ nth_error (i_particles i) 1 = Some q /\ p_type p = Fluid /\ p_type q <> Ghost /\
  p_pos q = p_pos p /\ p_vel q = p_vel p /\ ~ outside (s_domain (i_settings i)) (p_pos p) /\ numeric (i_particles i).
Proof. exact (twice_case false). Qed.
Print Assumptions C86_listed_twice.

(** With assertions the program ends with a failed one in the first step, whatever the velocities. *)
Theorem C86_listed_assert parse as_int as_dbl as_bool cell_int cell_dbl fsin fcos M_PI big dbg S real clk fuel setting out fs f1 i m a b p q :
  load parse as_int as_dbl as_bool cell_int cell_dbl dbg setting out fs = (f1, Ok i) -> room out f1 -> factoryCreate fsin fcos M_PI (i_settings i) (i_particles i) = Ok m ->
  (s_vtkBinary (i_settings i) = true -> Z.of_nat (List.length (i_particles i)) * 3 <= int_max) ->
  radiusF (s_reMax (i_settings i)) -> proper_domainF (s_domain (i_settings i)) -> s_asserts (i_settings i) = true -> @nlt F64 (B754_zero false) (s_reL (i_settings i)) = true ->
  @nlt F64 (i_start i) (s_endTime (i_settings i)) = true -> numeric (i_particles i) ->
  nth_error (i_particles i) a = Some p -> nth_error (i_particles i) b = Some q -> a <> b -> p_type p = Fluid -> p_type q <> Ghost ->
  p_pos q = p_pos p -> ~ outside (s_domain (i_settings i)) (p_pos p) ->
  snd (program parse as_int as_dbl as_bool cell_int cell_dbl fsin fcos M_PI big dbg S real clk (Datatypes.S fuel) setting out fs) = AssertFail.
Proof. exact (listed_assert parse as_int as_dbl as_bool cell_int cell_dbl fsin fcos M_PI big dbg S real clk fuel setting out fs f1 i m a b p q). Qed.
(** the debug build on that file *)
Example C86_listed_assert_case : exists f1 i m p q, load parseE read_int read_dbl read_bool read_int read_dbl true setting_path out_dir twice_disk = (f1, Ok i) /\
  room out_dir f1 /\ @factoryCreate F64 fid fid c20 (i_settings i) (i_particles i) = Ok m /\
  Z.of_nat (List.length (i_particles i)) * 3 <= int_max /\
  radiusF (s_reMax (i_settings i)) /\ proper_domainF (s_domain (i_settings i)) /\ s_asserts (i_settings i) = true /\ @nlt F64 (B754_zero false) (s_reL (i_settings i)) = true /\
  @nlt F64 (i_start i) (s_endTime (i_settings i)) = true /\
  nth_error (i_particles i) 0 = Some p /\ nth_error (i_particles i) 1 = Some q /\ p_type p = Fluid /\ p_type q <> Ghost /\
  p_pos q = p_pos p /\ p_vel q = p_vel p /\ ~ outside (s_domain (i_settings i)) (p_pos p) /\ numeric (i_particles i).
Proof. exact (twice_case true). Qed.
Print Assumptions C86_listed_assert.
