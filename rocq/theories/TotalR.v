(** * Which steps complete (C51) *)
From Coq Require Import Reals Lra.
From Verif Require Export PlanarR PressureR ImplicitFacts FallR NeighborF NeighborThms.
Open Scope R_scope.

Section Exact.
#[local] Remove Hints F64 : typeclass_instances.

Lemma C51_exact_lemma S (m : @mps Rnum) : ready m -> sized S -> good_end S m (stepForward S m).
Proof.
  intros RD SZ. pose proof RD as (SD & U & _). destruct (C51_lemma S m SD SZ) as [G|(ns & ps & F & W)]; auto. exfalso.
  assert (UI : @used_searcher Rnum (s_reMax (m_settings m)) (s_domain (m_settings m)) (List.length ps) ns /\ indexed ps).
  { destruct SD as (I & _ & US). destruct W as [[-> ->]|[W|(ns0 & ps0 & W0 & W)]]; auto.
    - split; [eapply move_searcher; eauto|]. eapply move_indexed; eauto.
    - assert (U0 : used_searcher (s_reMax (m_settings m)) (s_domain (m_settings m)) (List.length ps0) ns0) by (eapply move_searcher; eauto).
      split; [eapply collide_searcher; eauto|]. eapply collide_indexed; [|eauto]; eapply move_indexed; eauto. }
  destruct UI as [US I]. destruct U as (PD & U).
  destruct (run_R _ _ _ _ (ready_reMax m RD) PD US I) as (_ & _ & _ & _ & ns' & E). rewrite E in F. exact F.
Qed.

Lemma C51_run_lemma S n (m : @mps Rnum) : ready m -> sized S ->
  s_asserts (m_settings m) = false -> (forall det q, m_calc m = Implicit det q -> q_asserts q = false /\ forall k ts b, S k ts b <> None) ->
  exists m', steps S n m m'.
Proof.
  intros RD SZ A B. induction n as [|n [m1 IH]]; [exists m; constructor|].
  destruct (steps_static _ _ _ _ IH) as (ES & EG & EK & _).
  destruct (C51_exact_lemma S m1 (steps_ready _ _ _ _ IH RD) SZ) as [[m2 E]|[[D _]|[[det [q K]] [(k & ts & b & Z) _]]]].
  - exists m2. econstructor; eauto.
  - exfalso. unfold dbg_of in D. rewrite ES, A in D. simpl in D. destruct (m_calc m1) as [det q|] eqn:K; [|discriminate].
    destruct (B det q (eq_sym EK)). congruence.
  - exfalso. rewrite EK in K. destruct (B det q K) as [_ H]. exact (H _ _ _ Z).
Qed.

Lemma C26_exit_lemma S (m : @mps Rnum) det q : ready m -> (forall n ts b, S n ts b = None) ->
  m_calc m = Implicit det q -> s_asserts (m_settings m) = false -> q_asserts q = false -> stepForward S m = Exit (-1).
Proof.
  intros RD F K A B. destruct (C51_exact_lemma S m RD) as [[m' E]|[[D _]|(_ & _ & E)]]; auto.
  - intros n ts b x E. rewrite F in E. discriminate.
  - exfalso. exact (failure_never_completes S m m' det q F K E).
  - unfold dbg_of in D. rewrite K, A, B in D. discriminate.
Qed.

(** construction *)
Lemma newMPS_total s ps g k : usable s ->
  ((Zfloor (xLength (s_domain s) / s_reMax s) + 3) * (Zfloor (yLength (s_domain s) / s_reMax s) + 3) * (Zfloor (zLength (s_domain s) / s_reMax s) + 3) <= int_max)%Z ->
  exists m, @newMPS Rnum s ps g k = Ok m.
Proof.
  intros (PD & D & L0 & N & G & L) F. unfold newMPS.
  destruct (C04_lemma_R (s_reMax s) (s_domain s) (List.length ps) ltac:(lra) PD F) as [[ns ->] _]. cbn [bind].
  destruct (C09_lemma (s_asserts s) _ _ _ D L0 (proj1 N)) as (r1 & -> & _). destruct (C09_lemma (s_asserts s) _ _ _ D L0 (proj1 G)) as (r2 & -> & _).
  destruct (C09_lemma (s_asserts s) _ _ _ D L0 (proj1 L)) as (r3 & -> & _). cbn [bind]. eauto.
Qed.
End Exact.

Section Binary64.
#[local] Remove Hints Rnum : typeclass_instances.
Lemma C51_binary64_lemma S (m : @mps F64) : sound m -> sized S -> radiusF (s_reMax (m_settings m)) -> proper_domainF (s_domain (m_settings m)) ->
  good_end S m (stepForward S m) \/
  exists ns ps, ((ns = m_ns m /\ ps = m_ps m) \/ stepMove m = Ok (ns, ps) \/ exists ns0 ps0, stepMove m = Ok (ns0, ps0) /\ stepCollide m ns0 ps0 = Ok (ns, ps)) /\ ~ numeric ps.
Proof.
  intros SD SZ RF PD. destruct (C51_lemma S m SD SZ) as [G|(ns & ps & F & W)]; auto. right. exists ns, ps. split; auto. intros NU.
  assert (UI : @used_searcher F64 (s_reMax (m_settings m)) (s_domain (m_settings m)) (List.length ps) ns /\ indexed ps).
  { destruct SD as (I & _ & US). destruct W as [[-> ->]|[W|(ns0 & ps0 & W0 & W)]]; auto.
    - split; [eapply move_searcher; eauto|]. eapply move_indexed; eauto.
    - assert (U0 : used_searcher (s_reMax (m_settings m)) (s_domain (m_settings m)) (List.length ps0) ns0) by (eapply move_searcher; eauto).
      split; [eapply collide_searcher; eauto|]. eapply collide_indexed; [|eauto]; eapply move_indexed; eauto. }
  destruct UI as [US I]. destruct (run_F _ _ _ _ RF PD US I NU) as (_ & _ & _ & _ & ns' & E). rewrite E in F. exact F.
Qed.
End Binary64.

Lemma C15_lemma S n (m m' : @mps Rnum) i p p' : steps S n m m' ->
  nth_error (m_ps m) i = Some p -> nth_error (m_ps m') i = Some p' -> p_type p <> Fluid ->
  p_pos p' = p_pos p /\ p_vel p' = p_vel p.
Proof.
  intros H Hp Hp' T. apply (steps_evolves absorbs_zero_R) in H. destruct (Forall2_nth_r _ _ _ _ _ H Hp') as (a & Ha & (_ & F)).
  rewrite Hp in Ha. inv Ha. destruct (F T); auto.
Qed.
