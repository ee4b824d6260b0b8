(** * Properties C08, C10, C15, C20, C22, C23, C24: the physics in doubles

    Vocabulary: [SpecF] (kept3, planarF, mutual, interactsF, numberF, posF, nonnegF,
    ranged), [Spec] (steps, sound, indexed). *)
From Coq Require Import Reals Lra.
From Flocq Require Import Core.
From Verif Require Import DoubleCases.
Open Scope R_scope.
#[local] Remove Hints Rnum : typeclass_instances.

(** C08: never NaN, zero outside the radius, never zero inside it, and accurate *)
Theorem C08_weight_binary64 asserts (re d : f64) : fin re = true -> posF d ->
  exists w : f64, @weight F64 asserts d re = Ok w /\
    (@nle F64 re d = true -> w = B754_zero false) /\
    (@nlt F64 d re = true -> posF w /\
       (w = B754_infinity false /\ bpow radix2 1023 <= F2r re / F2r d \/
        fin w = true /\ Rabs (F2r w - (F2r re / F2r d - 1)) <= bpow radix2 (-51) * (F2r re / F2r d))).
Proof. exact (C08_F asserts re d). Qed.
Example C08_case_binary64 : fin c3 = true /\ posF c2 /\ @nlt F64 c2 c3 = true.
Proof. repeat split; reflexivity. Qed.
Print Assumptions C08_weight_binary64.

Theorem C08_decreasing_binary64 asserts (re d1 d2 : f64) : fin re = true -> posF d1 -> @nle F64 d1 d2 = true ->
  exists w1 w2 : f64, @weight F64 asserts d1 re = Ok w1 /\ @weight F64 asserts d2 re = Ok w2 /\ @nle F64 w2 w1 = true.
Proof. exact (C08_F_antitone asserts re d1 d2). Qed.
Example C08_case_decreasing_binary64 : fin c3 = true /\ posF c1 /\ @nle F64 c1 c2 = true.
Proof. repeat split; reflexivity. Qed.
Print Assumptions C08_decreasing_binary64.

(** C10: positive exactly where there is a listed neighbour nearer than the radius *)
Theorem C10_density_binary64 (s : @settings F64) (re : f64) ps : fin re = true -> posF re ->
  (forall p nb, In p ps -> p_type p <> Ghost -> In nb (p_nbrs p) -> posF (nb_dist nb)) ->
  exists ps', @calNumberDensity F64 s re ps = Ok ps' /\ List.length ps' = List.length ps /\
    forall i p, nth_error ps i = Some p -> exists n : f64, nth_error ps' i = Some (set_nd p n) /\
      (p_type p = Ghost -> n = B754_zero false) /\
      (p_type p <> Ghost -> nonnegF n /\ (posF n <-> exists nb, In nb (p_nbrs p) /\ @nlt F64 (nb_dist nb) re = true)).
Proof. exact (C10_F s re ps). Qed.
Example C10_case_binary64 : fin c3 = true /\ posF c3 /\ (forall p nb, In p duo -> p_type p <> Ghost -> In nb (p_nbrs p) -> posF (nb_dist nb)) /\
  exists p nb, In p duo /\ In nb (p_nbrs p).
Proof. split; [reflexivity|]. split; [reflexivity|]. split; [intros p nb [<-|[<-|[]]] _ [<-|[]]; reflexivity|]. eexists. eexists. split; [left; reflexivity|left; reflexivity]. Qed.
Print Assumptions C10_density_binary64.

(** ... and over any number of steps it is never negative nor NaN, whatever happens to the
    positions *)
Theorem C10_never_nan S n (m m' : @mps F64) : fin (s_reN (m_settings m)) = true -> posF (s_reN (m_settings m)) ->
  (forall p, In p (m_ps m) -> nonnegF (p_nd p)) -> steps S n m m' -> forall p, In p (m_ps m') -> nonnegF (p_nd p).
Proof. exact (C10_F_steps S n m m'). Qed.
Example C10_case_never_nan : exists m m' : @mps F64, fin (s_reN (m_settings m)) = true /\ posF (s_reN (m_settings m)) /\ (forall p, In p (m_ps m) -> nonnegF (p_nd p)) /\ steps solver0 1 m m'.
Proof.
  destruct (cross_step "Explicit" (or_intror eq_refl)) as (m & m' & _ & _ & EP & ES & _ & H). exists m, m'. rewrite ES, EP. split; [reflexivity|]. split; [reflexivity|]. split; [|exact H].
  intros p Hp. simpl in Hp. intuition (subst; reflexivity).
Qed.
Print Assumptions C10_never_nan.

(** C15: a particle that is not Fluid keeps its position and velocity, except that a
    coordinate may turn NaN *)
Theorem C15_nonfluid_binary64 S n (m m' : @mps F64) i p p' : steps S n m m' ->
  nth_error (m_ps m) i = Some p -> nth_error (m_ps m') i = Some p' -> p_type p <> Fluid ->
  kept3 (p_pos p) (p_pos p') /\ kept3 (p_vel p) (p_vel p').
Proof. exact (C15_F S n m m' i p p'). Qed.
Example C15_case_binary64 : exists (m m' : @mps F64) p, steps solver0 1 m m' /\ nth_error (m_ps m) 1 = Some p /\ p_type p <> Fluid.
Proof.
  destruct C15_nan_lemma as (m & m' & p & p' & _ & _ & H & E & _ & T & _). exists m, m', p. split; [eapply steps_S; [apply steps_0|exact H]|]. split; auto. rewrite T. discriminate.
Qed.
Print Assumptions C15_nonfluid_binary64.

(** the exception occurs: one step after which the velocity of a wall is NaN (all values
    before it are numbers) *)
Theorem C15_numbers_stay_refuted : exists (m m' : @mps F64) p p', sound m /\ numeric (m_ps m) /\ stepForward solver0 m = Ok m' /\
  nth_error (m_ps m) 1 = Some p /\ nth_error (m_ps m') 1 = Some p' /\ p_type p = Wall /\ p_vel p = @vzero F64 /\ is_nan (vy (p_vel p')) = true.
Proof. exact C15_nan_lemma. Qed.
Print Assumptions C15_numbers_stay_refuted.

(** C20 *)
Theorem C20_minimum_binary64 (re : f64) (ps : list (@particle F64)) : mutual ps -> indexed ps -> (forall p, In p ps -> numberF (p_press p)) ->
  exists ps', @setMinimumPressure F64 re ps = Ok ps' /\ List.length ps' = List.length ps /\
  forall i p, nth_error ps i = Some p -> exists m : f64, nth_error ps' i = Some (set_minp p m) /\
    (p_type p = Ghost \/ p_type p = DummyWall -> m = p_press p) /\
    (p_type p <> Ghost -> p_type p <> DummyWall ->
       @nle F64 m (p_press p) = true /\ (forall j q, interactsF re ps p j q -> @nle F64 m (p_press q) = true) /\
       (m = p_press p \/ exists j q, interactsF re ps p j q /\ m = p_press q)).
Proof. exact (C20_F re ps). Qed.
Example C20_case_binary64 : mutual duo /\ indexed duo /\ (forall p, In p duo -> numberF (p_press p)) /\ exists p j q, nth_error duo 0 = Some p /\ interactsF c2 duo p j q.
Proof.
  split; [exact duo_mutual|]. split; [exact duo_indexed|]. split; [exact duo_pressures|]. eexists. exists 1%nat. eexists. split; [reflexivity|].
  split; [reflexivity|]. split; [discriminate|]. eexists. split; [left; reflexivity|]. split; reflexivity.
Qed.
Print Assumptions C20_minimum_binary64.

(** the lists of the search are of this kind *)
Theorem C20_search_is_mutual re d ns (ps : list partF) :
  radiusF re -> proper_domainF d -> @used_searcher F64 re d (List.length ps) ns -> indexed ps -> numeric ps ->
  exists ns' ps', setNeighbors ns ps = Ok (ns', ps') /\ mutual ps'.
Proof. exact (search_mutual re d ns ps). Qed.
(* hypotheses: C02_case *)
Print Assumptions C20_search_is_mutual.

(** C22: the largest of those Courant numbers of fluid particles that are not NaN *)
Theorem C22_courant_binary64 (s : @settings F64) ps : let '(c, err) := @calCourant F64 s ps in
  nonnegF c /\
  (forall p, In p ps -> p_type p = Fluid -> let v := @ndiv F64 (@nmul F64 (@vnorm F64 (p_vel p)) (s_dt s)) (s_l0 s) in numberF v -> @nle F64 v c = true) /\
  (c = @nofZ F64 0 \/ exists p, In p ps /\ p_type p = Fluid /\ c = @ndiv F64 (@nmul F64 (@vnorm F64 (p_vel p)) (s_dt s)) (s_l0 s)) /\
  err = @nlt F64 (s_cfl s) c.
Proof. exact (C22_F s ps). Qed.
Print Assumptions C22_courant_binary64.

(** C23 *)
Theorem C23_planar_binary64 S n (m m' : @mps F64) : steps S n m m' -> sound m -> zero_or_nan (vz (m_gravity m)) -> planarF (m_ps m) -> planarF (m_ps m').
Proof. exact (C23_F S n m m'). Qed.
Example C23_case_binary64 : exists m m' : @mps F64, steps solver0 1 m m' /\ sound m /\ zero_or_nan (vz (m_gravity m)) /\ planarF (m_ps m).
Proof. exact planar_case. Qed.
Print Assumptions C23_planar_binary64.

(** C24: never negative nor NaN; zero for Ghost particles and at number densities up to n0 *)
Theorem C24_explicit_binary64 (n0 c : f64) ps : indexed ps -> fin n0 = true -> posF n0 -> fin c = true ->
  (forall p, In p ps -> fin (p_dens p) = true /\ posF (p_dens p) /\ fin (p_nd p) = true) ->
  exists x, @explicitCalc F64 n0 c ps = Ok x /\ List.length x = List.length ps /\
    forall i p, nth_error ps i = Some p -> exists v, nth_error x i = Some v /\ nonnegF v /\
      (p_type p = Ghost \/ @nle F64 (p_nd p) n0 = true -> v = B754_zero false).
Proof. exact (C24_F n0 c ps). Qed.
Example C24_case_binary64 : indexed duo /\ fin c2 = true /\ posF c2 /\ fin c3 = true /\ (forall p, In p duo -> fin (p_dens p) = true /\ posF (p_dens p) /\ fin (p_nd p) = true) /\
  exists p, In p duo /\ @nle F64 (p_nd p) c2 = false.
Proof.
  split; [exact duo_indexed|]. split; [reflexivity|]. split; [reflexivity|]. split; [reflexivity|]. split; [intros p [<-|[<-|[]]]; repeat split; reflexivity|].
  eexists. split; [left; reflexivity|reflexivity].
Qed.
Print Assumptions C24_explicit_binary64.

Theorem C24_monotone_binary64 (n0 c : f64) p q : fin n0 = true -> posF n0 -> fin c = true -> fin (p_dens p) = true -> posF (p_dens p) ->
  fin (p_nd p) = true -> fin (p_nd q) = true -> p_dens q = p_dens p -> p_type p <> Ghost -> p_type q <> Ghost ->
  @nle F64 (p_nd p) (p_nd q) = true -> @nle F64 (@explicit1 F64 n0 c p) (@explicit1 F64 n0 c q) = true.
Proof. exact (C24_F_monotone n0 c p q). Qed.
(* hypotheses: the particles of C24_case_binary64 *)
Print Assumptions C24_monotone_binary64.

(** accuracy for values between 2^-100 and 2^100 *)
Theorem C24_accuracy_binary64 (n0 c : f64) p : fin n0 = true -> fin c = true -> fin (p_dens p) = true -> fin (p_nd p) = true ->
  ranged 100 (F2r n0) -> ranged 100 (Rabs (F2r c)) -> ranged 100 (F2r (p_dens p)) -> ranged 100 (F2r (p_nd p)) ->
  p_type p <> Ghost -> F2r n0 < F2r (p_nd p) ->
  let v := F2r c * F2r c * F2r (p_dens p) * (F2r (p_nd p) - F2r n0) / F2r n0 in
  fin (@explicit1 F64 n0 c p) = true /\ Rabs (F2r (@explicit1 F64 n0 c p) - v) <= bpow radix2 (-50) * v.
Proof. exact (C24_F_accuracy n0 c p). Qed.
Example C24_case_accuracy : exists p, In p duo /\ fin c2 = true /\ fin c3 = true /\ fin (p_dens p) = true /\ fin (p_nd p) = true /\
  ranged 100 (F2r c2) /\ ranged 100 (Rabs (F2r c3)) /\ ranged 100 (F2r (p_dens p)) /\ ranged 100 (F2r (p_nd p)) /\ p_type p <> Ghost /\ F2r c2 < F2r (p_nd p).
Proof. exact accuracy_case. Qed.
Print Assumptions C24_accuracy_binary64.
