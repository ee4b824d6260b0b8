(** * Free fall of an isolated particle (C18) *)
From Coq Require Import Reals Lra PeanoNat.
From Verif Require Export MotionR CollisionR.
Open Scope R_scope.
#[local] Remove Hints F64 : typeclass_instances.

Lemma in_box_inside d (x : vecR) : in_box d x -> ~ @outside Rnum d x.
Proof.
  intros (A & B & C) H. unfold outside in H. simpl nlt in H.
  assert (K : forall a b : R, Rlt_bool a b = true -> a < b).
  { intros a b. destruct (Rlt_bool_spec a b); auto; discriminate. }
  destruct H as [H|[H|[H|[H|[H|H]]]]]; apply K in H; lra.
Qed.

(** the search finds nothing around a particle that is alone *)
Lemma alone_search d re i ns ps ns' ps' : 0 < re -> proper_domain d -> @used_searcher Rnum re d (List.length ps) ns -> indexed ps ->
  setNeighbors ns ps = Ok (ns', ps') -> alone d re i ps ->
  exists p, nth_error ps i = Some p /\ nth_error ps' i = Some (set_nbrs p []) /\ p_type p = Fluid /\
    forall k q nb, nth_error ps' k = Some q -> k <> i -> p_type q <> Ghost -> In nb (p_nbrs q) -> nb_id nb <> Z.of_nat i.
Proof.
  intros Hre PD U I E (p & Hp & T & B & AL). exists p.
  assert (LI := search_listed _ _ _ _ _ _ Hre PD U I E).
  destruct (search_frame _ _ _ _ _ _ U E) as [Ln HF].
  destruct (HF i p Hp) as (p' & Hp' & _ & _ & F3).
  destruct F3 as [l ->]; [rewrite T; discriminate|now apply in_box_inside|].
  assert (FAR : forall j q, nth_error ps' j = Some q -> j <> i -> p_type q <> Ghost -> re <= euclid (p_pos p) (p_pos q)).
  { intros j q Hq N Tq. destruct (search_kept _ _ _ _ _ _ _ _ U E Hq Tq) as (q0 & Hq0 & T0 & _ & ->). simpl. eapply AL; eauto. }
  assert (TG : p_type (set_nbrs p l) <> Ghost) by (simpl; rewrite T; discriminate).
  assert (L0 : l = []).
  { destruct l as [|nb l]; auto. destruct (LI _ _ Hp' TG) as [_ L2]. destruct (L2 nb) as [L3 _].
    destruct (L3 (or_introl eq_refl)) as (j & q & Hq & N & Tq & D & _). simpl in D. specialize (FAR j q Hq N Tq). lra. }
  subst l. repeat split; auto.
  intros k q nb Hq N Tq Hin Hid.
  destruct (LI _ _ Hq Tq) as [_ L2]. apply L2 in Hin. destruct Hin as (j & r & Hr & N' & Tr & D & ->). simpl in Hid.
  assert (j = i) by lia. subst j. rewrite Hp' in Hr. inv Hr. specialize (FAR k q Hq N Tq). simpl in D. rewrite euclid_sym in D. lra.
Qed.

(** collisions leave a particle alone that nobody lists *)
Lemma alone_collision (s : @settings Rnum) i ps ps' p : collision s ps = Ok ps' -> nth_error ps i = Some p -> p_nbrs p = [] ->
  (forall k q nb, nth_error ps k = Some q -> k <> i -> p_type q <> Ghost -> In nb (p_nbrs q) -> nb_id nb <> Z.of_nat i) ->
  nth_error ps' i = Some p.
Proof.
  intros H Hp NP HN. rewrite <- Hp.
  apply (collision_ind s (fun u => nth_error u i = nth_error ps i) ps ps' H); auto.
  intros u u' k nb q r IH Hc St Hq Tq Hin Hr.
  assert (FI : forall x, nth_error u k = Some x -> p_type x = Fluid).
  { intros x Hx. destruct (Forall2_nth_r _ _ _ _ _ St Hx) as (x0 & Hx0 & (T0 & _)). congruence. }
  destruct (collide_cases s k nb u u' Hc FI) as [->|(pi & pj & Hi & Hj & N & D & ->)]; auto.
  assert (k <> i). { intros ->. rewrite Hp in Hq. inv Hq. rewrite NP in Hin. contradiction. }
  assert (Z.to_nat (nb_id nb) <> i).
  { intros e. apply (HN k q nb Hq H0); auto; [rewrite Tq; discriminate|].
    unfold collide in Hc. binds Hc. binds Hc. apply vget_ok in E0. lia. }
  rewrite !nth_upd_other by auto. auto.
Qed.

(** one step *)
Lemma alone_step S i (m m' : @mps Rnum) ns ps ns' ps' p : ready m -> nth_error (m_ps m) i = Some p -> p_dens p <> 0 ->
  stepForward S m = Ok m' -> stepMove m = Ok (ns, ps) -> stepCollide m ns ps = Ok (ns', ps') ->
  alone (s_domain (m_settings m)) (s_reMax (m_settings m)) i (m_ps m) ->
  alone (s_domain (m_settings m)) (s_reMax (m_settings m)) i ps ->
  alone (s_domain (m_settings m)) (s_reMax (m_settings m)) i ps' ->
  exists p', nth_error (m_ps m') i = Some p' /\ p_type p' = Fluid /\ p_dens p' = p_dens p /\
    p_vel p' = addR (p_vel p) (scaleR (s_dt (m_settings m)) (m_gravity m)) /\
    p_pos p' = addR (p_pos p) (scaleR (s_dt (m_settings m)) (p_vel p')).
Proof.
  intros Rd Hp HD HF HM HC A1 A2 A3. assert (RM := ready_reMax m Rd).
  pose proof Rd as ((I & AR & U) & (PD & _) & _).
  set (s := m_settings m) in *. set (v' := addR (p_vel p) (scaleR (s_dt s) (m_gravity m))). set (x' := addR (p_pos p) (scaleR (s_dt s) v')).
  (* prediction *)
  assert (P1 : exists p1, nth_error ps i = Some p1 /\ p_type p1 = Fluid /\ p_dens p1 = p_dens p /\ p_acc p1 = vzero /\ p_vel p1 = v' /\ p_pos p1 = x').
  { unfold stepMove in HM. binds HM. destruct r as [n1 q1]. binds HM. inv HM.
    destruct (alone_search _ _ _ _ _ _ _ RM PD U I E A1) as (p0 & H0 & H1 & T & _).
    rewrite Hp in H0. inv H0. fold s in E0.
    assert (HG : nth_error (calGravity (m_gravity m) q1) i = Some (set_acc (set_nbrs p0 []) (addR vzero (m_gravity m)))).
    { unfold calGravity. rewrite BaseFacts.nth_error_map, H1. simpl. unfold calGravity1, is_type. cbn [p_type set_nbrs]. rewrite T. cbn [Z.eqb Fluid Pos.eqb].
      f_equal. f_equal. cbn [p_acc set_nbrs]. rewrite (AR p0 (nth_error_In _ _ Hp)). reflexivity. }
    rewrite calViscosity_mapM in E0. apply mapM_ok in E0. destruct (Forall2_nth _ _ _ _ _ E0 HG) as (pv & Hv & EV).
    unfold calViscosity1 in EV. unfold is_type in EV. cbn [p_type set_acc set_nbrs p_nbrs] in EV. rewrite T in EV. cbn in EV. inv EV.
    eexists. split. { unfold moveParticle. rewrite BaseFacts.nth_error_map, Hv. simpl. reflexivity. }
    unfold moveParticle1, is_type. cbn [p_type set_acc set_nbrs]. rewrite T. cbn.
    split; auto. split; auto. split; auto. split; apply vec_ext; simpl; fold s; ringR. }
  destruct P1 as (p1 & H1 & T1 & D1 & AC1 & V1 & X1).
  assert (IDs := step_rel). clear IDs.
  assert (U1 : used_searcher (s_reMax s) (s_domain s) (List.length ps) ns) by (eapply move_searcher; eauto).
  assert (I1 : indexed ps).
  { unfold stepMove in HM. binds HM. destruct r as [n1 q1]. binds HM. inv HM.
    assert (EV := setNeighbors_evolves _ _ _ _ E). apply calViscosity_evolves in E0.
    intros k q Hq. unfold moveParticle in Hq. rewrite BaseFacts.nth_error_map in Hq. destruct (nth_error r k) as [q0|] eqn:Hq0; [|discriminate]. inv Hq.
    destruct (Forall2_nth_r _ _ _ _ _ E0 Hq0) as (q2 & Hq2 & ((J1 & _) & _)). unfold calGravity in Hq2. rewrite BaseFacts.nth_error_map in Hq2.
    destruct (nth_error q1 k) as [q3|] eqn:Hq3; [|discriminate]. inv Hq2.
    destruct (Forall2_nth_r _ _ _ _ _ EV Hq3) as (q4 & Hq4 & ((J2 & _) & _)).
    transitivity (p_id q0). { unfold moveParticle1. destruct (is_type q0 Fluid); reflexivity. }
    rewrite J1. transitivity (p_id q3). { unfold calGravity1. destruct (is_type q3 Fluid); reflexivity. }
    rewrite J2. now apply I. }
  (* collision *)
  assert (P2 : exists p2, nth_error ps' i = Some p2 /\ p_type p2 = Fluid /\ p_dens p2 = p_dens p /\ p_acc p2 = vzero /\ p_vel p2 = v' /\ p_pos p2 = x').
  { unfold stepCollide in HC. binds HC. destruct r as [n1 q1]. binds HC. inv HC.
    destruct (alone_search _ _ _ _ _ _ _ RM PD U1 I1 E A2) as (p0 & H0 & H2 & T & NB).
    rewrite H1 in H0. inv H0. exists (set_nbrs p0 []). split; [|simpl; auto].
    eapply alone_collision; eauto. }
  destruct P2 as (p2 & H2 & T2 & D2 & AC2 & V2 & X2).
  assert (U2 : used_searcher (s_reMax s) (s_domain s) (List.length ps') ns') by (eapply collide_searcher; eauto).
  assert (I2 : indexed ps').
  { unfold stepCollide in HC. binds HC. destruct r as [n1 q1]. binds HC. inv HC.
    apply collision_same_id in E0. apply setNeighbors_evolves in E.
    intros k q Hq. destruct (Forall2_nth_r _ _ _ _ _ E0 Hq) as (q0 & Hq0 & (J & _)). destruct (Forall2_nth_r _ _ _ _ _ E Hq0) as (q2 & Hq2 & ((J2 & _) & _)).
    rewrite J, J2. now apply I1. }
  (* pressure and correction *)
  unfold stepForward in HF. rewrite HM in HF. cbn [bind] in HF. rewrite HC in HF. cbn [bind] in HF. binds HF. destruct r as [n3 ps3]. binds HF.
  destruct (calCourant _ _). inv HF. simpl m_ps.
  unfold stepPressure in E. binds E. destruct r0 as [n1 q1]. binds E. binds E. destruct r1 as [q2 x]. binds E. inv E. fold s in E2.
  destruct (alone_search _ _ _ _ _ _ _ RM PD U2 I2 E1 A3) as (p0 & H0 & H3 & T & _). rewrite H2 in H0. inv H0.
  unfold stepCorrect in E0. binds E0. binds E0. fold s in E, E0, E5.
  apply calNumberDensity_move in E2. apply calc_move in E3. apply assignPressure_move in E4. apply minp_move in E.
  assert (MV : Forall2 same_move q1 r1) by (repeat (eapply Forall2_trans; [apply same_move_trans| |]; [|eassumption]); apply Forall2_same, same_move_refl).
  destruct (Forall2_nth _ _ _ _ _ MV H3) as (p3 & H4 & (((M1 & M2 & M3) & M4 & _ & M5) & M6)). cbn [p_type p_pos p_vel p_acc p_nbrs p_dens set_nbrs] in *.
  rewrite calPressureGradient_mapM in E5. apply mapM_ok in E5. destruct (Forall2_nth _ _ _ _ _ E5 H4) as (p4 & H5 & EG).
  unfold calPressureGradient1 in EG. unfold is_type in EG. rewrite M1, T, M4 in EG. cbn in EG. injection EG as <-.
  assert (H6 : exists p5, nth_error (moveParticleUsingPressureGradient s r2) i = Some p5 /\ p_type p5 = Fluid /\ p_dens p5 = p_dens p /\ p_vel p5 = v' /\ p_pos p5 = x').
  { unfold moveParticleUsingPressureGradient. rewrite BaseFacts.nth_error_map, H5. eexists. split; [reflexivity|].
    unfold correct1, is_type. cbn [p_type set_acc]. rewrite M1, T. cbn.
    split; [congruence|]. split; [congruence|]. rewrite M2, M3, M6, AC2, V2, X2, M5, D2.
    split; apply vec_ext; simpl; unfold Rdiv; ringR. }
  destruct H6 as (p5 & H6 & T6 & D6 & V6 & X6).
  destruct (m_calc m).
  - inv E0. exists p5. rewrite V6. auto.
  - binds E0. apply assignPressure_move in E0. destruct (Forall2_nth _ _ _ _ _ E0 H6) as (p6 & H7 & (((K1 & K2 & K3) & _ & _ & K5) & _)).
    exists p6. rewrite K1, K2, K3, K5, V6. auto.
Qed.

Lemma C18_lemma S i n (m m' : @mps Rnum) p : ready m -> nth_error (m_ps m) i = Some p -> p_dens p <> 0 -> p_type p = Fluid ->
  lone_steps S i n m m' ->
  let g := m_gravity m in let dt := s_dt (m_settings m) in
  exists p', nth_error (m_ps m') i = Some p' /\ p_type p' = Fluid /\
    p_vel p' = addR (p_vel p) (scaleR (INR n * dt) g) /\
    p_pos p' = addR (p_pos p) (addR (scaleR (INR n * dt) (p_vel p)) (scaleR (INR n * (INR n + 1) / 2 * dt ^ 2) g)).
Proof.
  intros Rd Hp HD HT H g dt.
  assert (K : exists p', nth_error (m_ps m') i = Some p' /\ p_type p' = Fluid /\ p_dens p' = p_dens p /\
    p_vel p' = addR (p_vel p) (scaleR (INR n * dt) g) /\
    p_pos p' = addR (p_pos p) (addR (scaleR (INR n * dt) (p_vel p)) (scaleR (INR n * (INR n + 1) / 2 * dt ^ 2) g)) /\
    ready m' /\ m_gravity m' = g /\ m_settings m' = m_settings m).
  { revert Hp HD HT Rd. subst g dt. induction H; intros Hp HD HT Rd.
    - exists p. simpl. repeat split; auto; try apply Rd; apply vec_ext; simpl; lra.
    - destruct (IHlone_steps Hp HD HT Rd) as (q & Q1 & Q2 & Q3 & Q4 & Q5 & Q6 & Q7 & Q8).
      assert (DQ : p_dens q <> 0) by congruence.
      destruct (alone_step S i m1 m2 _ _ _ _ q Q6 Q1 DQ H0 H1 H2 H3 H4 H5) as (r & R1 & R2 & R3 & R4 & R5).
      destruct (step_static _ _ _ H0) as (E1 & E2 & _).
      exists r. rewrite Q7, Q8 in *. split; auto. split; auto. split; [congruence|].
      assert (V : p_vel r = addR (p_vel p) (scaleR (INR (Datatypes.S n) * s_dt (m_settings m)) (m_gravity m))).
      { rewrite R4, Q4, S_INR. apply vec_ext; simpl; ring. }
      split; auto. split; [|split; [eapply step_ready; eauto|split; congruence]].
      rewrite R5, V, Q5, S_INR. apply vec_ext; simpl; field. }
  destruct K as (p' & A & B & _ & C & D & _). exists p'. auto.
Qed.
