(** * Invariants of the time step, for every number type *)
From Verif Require Export StageFacts NeighborProps.
From Coq Require Import PeanoNat.
Open Scope Z_scope.

Section StepFacts.
Context {N : Num}.

(** ** identity over any number of steps (C16) *)
Lemma steps_same_id S n m m' : steps S n m m' -> Forall2 same_id (m_ps m) (m_ps m').
Proof.
  apply steps_rel.
  - apply same_id_refl.
  - apply same_id_trans.
  - apply step_same_id.
Qed.

Lemma steps_evolves (Z : absorbs_zero) S n m m' : steps S n m m' -> Forall2 evolves (m_ps m) (m_ps m').
Proof.
  apply steps_rel.
  - apply evolves_refl.
  - apply evolves_trans.
  - intros. eapply step_evolves; eauto.
Qed.

Lemma steps_static S n m m' : steps S n m m' ->
  m_settings m' = m_settings m /\ m_gravity m' = m_gravity m /\ m_calc m' = m_calc m /\
  m_rvN m' = m_rvN m /\ m_rvG m' = m_rvG m /\ m_rvL m' = m_rvL m.
Proof.
  induction 1; auto 10. apply step_static in H0. destruct IHsteps as (A & B & C & D & E & F), H0 as (A' & B' & C' & D' & E' & F').
  repeat split; congruence.
Qed.

Lemma same_id_indexed ps ps' : Forall2 same_id ps ps' -> indexed ps -> indexed ps'.
Proof.
  intros F I i p' H. destruct (Forall2_nth_r _ _ _ _ _ F H) as (p & Hp & (E & _)). rewrite E. now apply I.
Qed.

Lemma C16_lemma S n m m' : steps S n m m' ->
  List.length (m_ps m') = List.length (m_ps m) /\
  forall i p, nth_error (m_ps m) i = Some p -> exists p', nth_error (m_ps m') i = Some p' /\
    p_id p' = p_id p /\ p_dens p' = p_dens p /\ p_fluidType p' = p_fluidType p /\
    (p_type p' = p_type p \/ p_type p' = Ghost) /\ (p_type p = Ghost -> p_type p' = Ghost).
Proof.
  intros H. apply steps_same_id in H. split; [symmetry; eapply Forall2_length; eauto|].
  intros i p Hp. destruct (Forall2_nth _ _ _ _ _ H Hp) as (p' & Hp' & (A & B & C & D)). exists p'.
  repeat split; auto. intros T. destruct D; congruence.
Qed.

(** ** nothing else than moving and colliding moves particles *)
Definition same_motion (p p' : particle) : Prop := p_type p' = p_type p /\ p_pos p' = p_pos p /\ p_vel p' = p_vel p.
Lemma same_motion_refl p : same_motion p p.
Proof. unfold same_motion; auto. Qed.
Lemma same_motion_trans p q r : same_motion p q -> same_motion q r -> same_motion p r.
Proof. unfold same_motion. intros (A & B & C) (D & E & F). repeat split; congruence. Qed.
Hint Resolve same_motion_refl : core.

(** what is not changed by anything from the gravity to the viscosity and from the
    number density to the pressure gradient: type, position, velocity and list *)
Definition same_place (p p' : particle) : Prop := same_motion p p' /\ p_nbrs p' = p_nbrs p /\ p_id p' = p_id p /\ p_dens p' = p_dens p.
Lemma same_place_refl p : same_place p p.
Proof. unfold same_place; auto. Qed.
Lemma same_place_trans p q r : same_place p q -> same_place q r -> same_place p r.
Proof. unfold same_place. intros (A & B & C & D) (A' & B' & C' & D'). repeat split; try congruence; eapply same_motion_trans; eauto. Qed.
(** ... and from the number density to the minimum pressure the acceleration, too *)
Definition same_move (p p' : particle) : Prop := same_place p p' /\ p_acc p' = p_acc p.
Lemma same_move_refl p : same_move p p.
Proof. unfold same_move, same_place; auto. Qed.
Lemma same_move_trans p q r : same_move p q -> same_move q r -> same_move p r.
Proof. unfold same_move. intros (A & B) (C & D). split; [eapply same_place_trans; eauto|congruence]. Qed.
Ltac sp := unfold same_move, same_place, same_motion; simpl; auto 10.

Lemma calGravity_place g ps : Forall2 same_place ps (calGravity g ps).
Proof. apply Forall2_map_r. intros p. unfold calGravity1. destruct (is_type p Fluid); sp. Qed.
Lemma calViscosity_place s rv re ps ps' : calViscosity s rv re ps = Ok ps' -> Forall2 same_place ps ps'.
Proof.
  apply (each_R _ same_place_refl same_place_trans). intros w a a' H. unfold calViscosity1 in H.
  destruct (negb _); [inv H; sp|]. binds H. inv H. sp.
Qed.
Lemma calNumberDensity_move s re ps ps' : calNumberDensity s re ps = Ok ps' -> Forall2 same_move ps ps'.
Proof.
  apply (each_R _ same_move_refl same_move_trans). intros w a a' H. unfold calNumberDensity1 in H.
  destruct (is_type a Ghost); [inv H; sp|]. binds H. inv H. sp.
Qed.
Lemma setBC_move d ps ps' : setBoundaryCondition d ps = Ok ps' -> Forall2 same_move ps ps'.
Proof.
  apply (each_R _ same_move_refl same_move_trans). intros w a a' H. unfold setBC1 in H.
  destruct (ghost_or_dummy a); [inv H; sp|]. binds H. inv H. sp.
Qed.
Lemma calc_move S k ps ps' x : calc S k ps = Ok (ps', x) -> Forall2 same_move ps ps'.
Proof.
  unfold calc. destruct k.
  - unfold implicitCalc. intros H. binds H. destruct r as [ps1 d]. binds H. inv H.
    unfold generateBC in E. binds E. inv E. now apply setBC_move in E1.
  - intros H. binds H. inv H. apply Forall2_same, same_move_refl.
Qed.
Lemma assignPressure_move x ps ps' : assignPressure x ps = Ok ps' -> Forall2 same_move ps ps'.
Proof. apply (each_R _ same_move_refl same_move_trans). intros w a a' H. binds H. inv H. sp. Qed.
Lemma minp_move re ps ps' : setMinimumPressure re ps = Ok ps' -> Forall2 same_move ps ps'.
Proof.
  unfold setMinimumPressure. intros H.
  eapply Forall2_trans; [apply same_move_trans|apply Forall2_map_r; intros p; instantiate (1 := fun p => set_minp p (p_press p)); sp|].
  revert H. apply (foldM_R _ same_move_refl same_move_trans). intros i t t' H. unfold minp1 in H.
  binds H. destruct (ghost_or_dummy r); [inv H; apply Forall2_same, same_move_refl|].
  revert H. apply (foldM_R _ same_move_refl same_move_trans). clear. intros nb t t' H. unfold minp_pair in H.
  binds H. binds H. destruct (ghost_or_dummy r0); [inv H; apply Forall2_same, same_move_refl|].
  destruct (_ <? _); [inv H; apply Forall2_same, same_move_refl|].
  destruct (nlt _ _); [|inv H; apply Forall2_same, same_move_refl].
  binds H. apply (vmod_R _ same_move_refl) in E1; [|intros; sp]. apply (vmod_R _ same_move_refl) in H; [|intros; sp].
  eapply Forall2_trans; [apply same_move_trans| |]; eauto.
Qed.
Lemma calPressureGradient_place s rv re ps ps' : calPressureGradient s rv re ps = Ok ps' -> Forall2 same_place ps ps'.
Proof.
  apply (each_R _ same_place_refl same_place_trans). intros w a a' H. unfold calPressureGradient1 in H.
  destruct (negb _); [inv H; sp|]. binds H. inv H. sp.
Qed.

(** ** the acceleration after a step (C17) *)
Lemma assign_acc x ps ps' : assignPressure x ps = Ok ps' -> at_rest ps -> at_rest ps'.
Proof.
  rewrite assignPressure_mapM. intros H R p' Hp'. apply mapM_ok in H. apply In_nth_error in Hp'. destruct Hp' as [i Hp'].
  destruct (Forall2_nth_r _ _ _ _ _ H Hp') as (p & Hp & E). binds E. inv E. simpl. apply R. eapply nth_error_In; eauto.
Qed.

Lemma correct_at_rest s ps : at_rest (moveParticleUsingPressureGradient s ps).
Proof. intros p H. apply in_map_iff in H. destruct H as (q & <- & _). reflexivity. Qed.

Lemma step_at_rest S m m' : stepForward S m = Ok m' -> at_rest (m_ps m').
Proof.
  unfold stepForward. intros H. binds H. destruct r. binds H. destruct r. binds H. destruct r. binds H. destruct (calCourant _ _). inv H. simpl.
  unfold stepCorrect in E2. binds E2. binds E2. destruct (m_calc m).
  - inv E2. apply correct_at_rest.
  - binds E2. eapply assign_acc; eauto. apply correct_at_rest.
Qed.

Lemma C17_acc_lemma S n m m' : steps S n m m' -> at_rest (m_ps m) -> at_rest (m_ps m').
Proof. induction 1; auto. intros _. eapply step_at_rest; eauto. Qed.

(** ** the searcher *)
Lemma setNeighbors_length ns ps ns' ps' : setNeighbors ns ps = Ok (ns', ps') -> List.length ps' = List.length ps.
Proof. intros H. apply setNeighbors_evolves in H. symmetry. eapply Forall2_length; eauto. Qed.

Lemma used_next re d ps ns ns' ps' : used_searcher re d (List.length ps) ns -> setNeighbors ns ps = Ok (ns', ps') ->
  used_searcher re d (List.length ps') ns'.
Proof. intros U H. rewrite (setNeighbors_length _ _ _ _ H). eapply used_call; eauto. Qed.

Lemma move_searcher re d m ns ps : used_searcher re d (List.length (m_ps m)) (m_ns m) -> stepMove m = Ok (ns, ps) ->
  used_searcher re d (List.length ps) ns.
Proof.
  intros U H. unfold stepMove in H. binds H. destruct r as [n1 p1]. binds H. inv H.
  assert (L : List.length (moveParticle (m_settings m) r) = List.length p1).
  { unfold moveParticle. rewrite map_length. apply calViscosity_evolves, Forall2_length in E0. rewrite <- E0. unfold calGravity. now rewrite map_length. }
  rewrite L. eapply used_next; eauto.
Qed.

Lemma collide_searcher re d m ns ps ns' ps' : used_searcher re d (List.length ps) ns -> stepCollide m ns ps = Ok (ns', ps') ->
  used_searcher re d (List.length ps') ns'.
Proof.
  intros U H. unfold stepCollide in H. binds H. destruct r as [n1 p1]. binds H. inv H.
  apply collision_same_id, Forall2_length in E0. rewrite <- E0. eapply used_next; eauto.
Qed.

Lemma pressure_searcher re d S m ns ps ns' ps' : used_searcher re d (List.length ps) ns -> stepPressure S m ns ps = Ok (ns', ps') ->
  used_searcher re d (List.length ps') ns'.
Proof.
  intros U H. unfold stepPressure in H. binds H. destruct r as [n1 p1]. binds H. binds H. destruct r0. binds H. inv H.
  apply calNumberDensity_evolves, Forall2_length in E0. apply calc_evolves, Forall2_length in E1. apply assignPressure_evolves, Forall2_length in E2.
  rewrite <- E2, <- E1, <- E0. eapply used_next; eauto.
Qed.

Lemma step_sound S m m' : sound m -> stepForward S m = Ok m' -> sound m'.
Proof.
  intros (I & R & U) H. pose proof (step_static _ _ _ H) as (ES & _). split; [|split].
  - eapply same_id_indexed; [eapply step_same_id; eauto|auto].
  - eapply step_at_rest; eauto.
  - rewrite ES. assert (L := step_same_id _ _ _ H). apply Forall2_length in L.
    unfold stepForward in H. binds H. destruct r as [ns1 ps1]. binds H. destruct r as [ns2 ps2]. binds H. destruct r as [ns3 ps3]. binds H.
    destruct (calCourant _ _). inv H. simpl in *.
    assert (U3 : used_searcher (s_reMax (m_settings m)) (s_domain (m_settings m)) (List.length ps3) ns3).
    { eapply pressure_searcher; [|exact E1]. eapply collide_searcher; [|exact E0]. eapply move_searcher; eauto. }
    replace (List.length r) with (List.length ps3); auto.
    unfold stepCorrect in E2. binds E2. binds E2. apply minp_evolves, Forall2_length in E3. apply calPressureGradient_evolves, Forall2_length in E4.
    assert (LM : List.length (moveParticleUsingPressureGradient (m_settings m) r1) = List.length r1) by (unfold moveParticleUsingPressureGradient; apply map_length).
    destruct (m_calc m).
    + inv E2. unfold moveParticleUsingPressureGradient. rewrite map_length. congruence.
    + binds E2. apply assignPressure_evolves, Forall2_length in E2. congruence.
Qed.

Lemma steps_sound S n m m' : steps S n m m' -> sound m -> sound m'.
Proof. induction 1; auto. intros. eapply step_sound; [|eassumption]; auto. Qed.

Lemma newMPS_sound s ps g k m : newMPS s ps g k = Ok m -> indexed ps -> at_rest ps -> sound m.
Proof.
  unfold newMPS. intros H I R. binds H. binds H. binds H. binds H. inv H. split; [|split]; auto. now apply used_new.
Qed.

Lemma C22_reported S m m' : stepForward S m = Ok m' -> m_courant m' = fst (calCourant (m_settings m) (m_ps m')) /\
  m_cflErrors m' = if nlt (s_cfl (m_settings m)) (m_courant m') then Datatypes.S (m_cflErrors m) else m_cflErrors m.
Proof.
  unfold stepForward. intros H. binds H. destruct r as [ns1 ps1]. binds H. destruct r as [ns2 ps2]. binds H. destruct r as [ns3 ps3]. binds H.
  destruct (calCourant (m_settings m) r) as [c e] eqn:E3. inv H. cbn [m_courant m_ps m_cflErrors]. rewrite E3. split; auto. unfold calCourant in E3. inv E3. reflexivity.
Qed.
End StepFacts.
