(** * Pressures after a step with the implicit method, solver failures (C26) *)
From Verif Require Export SafetyFacts.
Open Scope Z_scope.

Section Implicit.
Context {N : Num}.

Lemma implicit_nonneg (S : solver) det q ps ps' x : nlt (nofZ 0) (nofZ 0) = false -> implicitCalc S det q ps = Ok (ps', x) ->
  forall v, In v x -> nlt v (nofZ 0) = false.
Proof.
  intros Z0 H v Hv. unfold implicitCalc in H. binds H. destruct r as [ps1 d]. binds H. inv H.
  apply in_map_iff in Hv. destruct Hv as (u & <- & _). destruct (nlt u (nofZ 0)) eqn:E1; auto.
Qed.

Lemma step_nonneg S m m' det q : nlt (nofZ 0) (nofZ 0) = false -> m_calc m = Implicit det q -> stepForward S m = Ok m' ->
  forall p, In p (m_ps m') -> nlt (p_press p) (nofZ 0) = false.
Proof.
  intros Z0 K H p Hp. unfold stepForward in H. binds H. destruct r as [ns1 ps1]. binds H. destruct r as [ns2 ps2]. binds H. destruct r as [ns3 ps3]. binds H.
  destruct (calCourant _ _). inv H. simpl in Hp. clear E E0.
  assert (P3 : forall p, In p ps3 -> nlt (p_press p) (nofZ 0) = false).
  { unfold stepPressure in E1. binds E1. destruct r0 as [n0 q0]. binds E1. binds E1. destruct r1 as [q2 x]. binds E1. inv E1.
    rewrite K in E3. cbn [calc] in E3. assert (NN := implicit_nonneg _ _ _ _ _ _ Z0 E3).
    rewrite assignPressure_mapM in E4. apply mapM_ok in E4. intros p' Hp'. apply In_nth_error in Hp'. destruct Hp' as [k Hp'].
    destruct (Forall2_nth_r _ _ _ _ _ E4 Hp') as (a & Ha & V). binds V. inv V. simpl. apply NN. apply vget_ok in E1. destruct E1 as [_ E1]. eapply nth_error_In; eauto. }
  unfold stepCorrect in E2. binds E2. binds E2. rewrite K in E2. inv E2.
  assert (F : Forall2 same_state ps3 (moveParticleUsingPressureGradient (m_settings m) r1)).
  { eapply Forall2_trans; [apply same_state_trans|eapply minp_state; eauto|]. eapply Forall2_trans; [apply same_state_trans|eapply gradient_state; eauto|apply correct_state]. }
  apply In_nth_error in Hp. destruct Hp as [k Hp]. destruct (Forall2_nth_r _ _ _ _ _ F Hp) as (a & Ha & (_ & _ & _ & _ & P & _)).
  rewrite P. apply P3. eapply nth_error_In; eauto.
Qed.

(** a solver that reports failure ends the program *)
Lemma failure_exits (S : solver) det q ps ps' d ts b : generateBC det ps = Ok (ps', d) -> ppe_setup q d ps' = Ok (ts, b) ->
  S (List.length ps') ts b = None -> implicitCalc S det q ps = Exit (-1).
Proof. intros A B C. unfold implicitCalc. rewrite A. cbn [bind]. unfold ppe_solve. rewrite B. cbn [bind]. now rewrite C. Qed.
Lemma failure_never_completes (S : solver) m m' det q : (forall n ts b, S n ts b = None) -> m_calc m = Implicit det q -> stepForward S m <> Ok m'.
Proof.
  intros F K H. unfold stepForward in H. binds H. destruct r as [ns1 ps1]. binds H. destruct r as [ns2 ps2]. binds H. clear H E E0. unfold stepPressure in E1.
  binds E1. destruct r0 as [n0 q0]. binds E1. binds E1. clear E1. rewrite K in E2. cbn [calc] in E2. unfold implicitCalc in E2. binds E2. destruct r2 as [q2 d]. binds E2.
  unfold ppe_solve in E3. binds E3. destruct r3 as [ts b]. now rewrite F in E3.
Qed.
End Implicit.
