(** * Construction of the simulator and completion of implicit steps (C35, C51, C54) *)
From Coq Require Import Reals Lra.
From Verif Require Export StepR GaussR.
Open Scope R_scope.
#[local] Remove Hints F64 : typeclass_instances.

(** ** C54: the factory *)
Lemma reference_made b dim l0 re rv : (dim = 2 \/ dim = 3)%Z -> 0 < l0 -> l0 < re -> @newRefValues Rnum b dim l0 re = Ok rv -> reference dim l0 re (rv_n0 rv) (rv_lambda rv).
Proof.
  intros D L0 R E. destruct (C09_lemma b dim l0 re D L0 R) as (r & E' & N0 & LA & LAT & _). rewrite E in E'. inv E'.
  split; auto. split; [assert (0 < l0 ^ 2) by (simpl; nra); lra|]. intros H5 L HL. destruct (LAT H5 L HL) as [A B]. split; auto. rewrite B, <- A. field. lra.
Qed.

Lemma C54_lemma fs fc pi (s : @settings Rnum) ps : usable s -> indexed ps -> at_rest ps ->
  ((Zfloor (xLength (s_domain s) / s_reMax s) + 3) * (Zfloor (yLength (s_domain s) / s_reMax s) + 3) * (Zfloor (zLength (s_domain s) / s_reMax s) + 3) <= int_max)%Z ->
  s_method s = "Implicit"%string \/ s_method s = "Explicit"%string ->
  exists m, factoryCreate fs fc pi s ps = Ok m /\ ready m /\ m_settings m = s /\ m_ps m = ps /\ m_gravity m = factoryGravity fs fc pi s /\
    configured s (m_calc m) /\
    reference (s_dim s) (s_l0 s) (s_reN s) (rv_n0 (m_rvN m)) (rv_lambda (m_rvN m)) /\
    reference (s_dim s) (s_l0 s) (s_reG s) (rv_n0 (m_rvG m)) (rv_lambda (m_rvG m)) /\
    reference (s_dim s) (s_l0 s) (s_reL s) (rv_n0 (m_rvL m)) (rv_lambda (m_rvL m)) /\
    m_courant m = 0 /\ m_cflErrors m = 0%nat /\
    (s_dt s <> 0 -> sensible (m_calc m) (s_reMax s)).
Proof.
  intros U I A F MT. pose proof U as (PD & D & L0 & N & G & L).
  destruct (C09_lemma (s_asserts s) _ _ _ D L0 (proj1 N)) as (r1 & E1 & _). destruct (C09_lemma (s_asserts s) _ _ _ D L0 (proj1 G)) as (r2 & E2 & _).
  destruct (C09_lemma (s_asserts s) _ _ _ D L0 (proj1 L)) as (r3 & E3 & _).
  assert (R1 := reference_made _ _ _ _ _ D L0 (proj1 N) E1). assert (R2 := reference_made _ _ _ _ _ D L0 (proj1 G) E2). assert (R3 := reference_made _ _ _ _ _ D L0 (proj1 L) E3).
  set (det := if s_sd_dist s then @ByDistribution Rnum (rv_n0 r1) (s_l0 s) (s_sd_dist_thr s) (s_sd_nd s) else @ByNumberDensity Rnum (s_sd_nd s) (rv_n0 r1)).
  assert (ED : factoryDetector s = Ok det). { unfold factoryDetector. rewrite E1. reflexivity. }
  assert (K : exists k, factoryCalculator s det = Ok k /\ configured s k /\ (s_dt s <> 0 -> sensible k (s_reMax s))).
  { unfold factoryCalculator. destruct MT as [MT|MT]; rewrite MT; simpl String.eqb; cbv iota; rewrite E1; [rewrite E3|]; cbn [bind]; (eexists; split; [reflexivity|]).
    - split.
      + split; auto. repeat (split; [reflexivity|]). cbn [q_n0N q_n0L q_lambda]. split; [eauto|]. split; [exact R3|].
        unfold det. destruct (s_sd_dist s) eqn:SD; simpl; eauto 8.
      + intros DT. cbn [sensible q_reL q_n0N q_n0L q_lambda q_dt]. destruct R1 as (X1 & _), R3 as (X3 & Y3 & _). repeat split; auto. apply L.
    - split; [split; eauto|]. intros _. apply R1. }
  destruct K as (k & EK & CK & SK). destruct (newMPS_total s ps (factoryGravity fs fc pi s) k U F) as [m E]. exists m.
  assert (EF : factoryCreate fs fc pi s ps = Ok m) by (unfold factoryCreate; rewrite ED; cbn [bind]; rewrite EK; exact E). split; auto.
  split; [eapply newMPS_ready; eauto|]. unfold newMPS in E. binds E. rewrite E1, E2, E3 in E. cbn [bind] in E. inv E. cbn [m_settings m_ps m_gravity m_calc m_rvN m_rvG m_rvL m_courant m_cflErrors].
  repeat (split; [auto; fail|]). auto.
Qed.

Lemma C54_other_lemma {N : Num} fs fc pi (s : settings) ps m : factoryCreate fs fc pi s ps = Ok m -> s_method s = "Implicit"%string \/ s_method s = "Explicit"%string.
Proof.
  unfold factoryCreate, factoryCalculator. intros H. binds H. binds H.
  destruct (String.eqb_spec (s_method s) "Implicit"); auto. destruct (String.eqb_spec (s_method s) "Explicit"); auto. discriminate.
Qed.
Lemma newRefValues_total {N : Num} dim (l0 re : num) : exists rv, newRefValues false dim l0 re = Ok rv.
Proof.
  unfold newRefValues, cassert. cbn [andb bind].
  assert (T : forall l a, exists b, foldM (ref_step false l0 re) l a = Ok b).
  { induction l as [|c l IH]; intros a; [exists a; reflexivity|]. assert (E : exists a', ref_step false l0 re c a = Ok a').
    { destruct a as [n0 la]. unfold ref_step, weight, cassert. destruct c as [[x y] z]. cbn [andb bind]. eauto. }
    destruct E as [a' E]. destruct (IH a') as [b Hb]. exists b. cbn [foldM]. rewrite E. exact Hb. }
  destruct (T (ref_offsets dim) (nofZ 0, nofZ 0)) as [[n0 la] ->]. cbn [bind]. eauto.
Qed.
Lemma C54_exit_lemma {N : Num} fs fc pi (s : settings) ps : s_asserts s = false -> s_method s <> "Implicit"%string -> s_method s <> "Explicit"%string ->
  factoryCreate fs fc pi s ps = Exit (-1).
Proof.
  intros B H1 H2. unfold factoryCreate, factoryDetector, factoryCalculator. rewrite B. destruct (newRefValues_total (s_dim s) (s_l0 s) (s_reN s)) as [rv ->].
  cbn [bind]. destruct (String.eqb_spec (s_method s) "Implicit"); [contradiction|]. destruct (String.eqb_spec (s_method s) "Explicit"); [contradiction|]. reflexivity.
Qed.

(** ** C35: gravity *)
Lemma C35_lemma (s : @settings Rnum) : let g := @factoryGravity Rnum sin cos PI s in
  (s_xyzInput s = true -> g = s_gravity s) /\
  (s_xyzInput s = false -> let t := s_gAngle s * PI / 180 in
     vx g = 0 * cos t - (- s_gNorm s) * sin t /\ vy g = 0 * sin t + (- s_gNorm s) * cos t /\ vz g = 0 /\
     vx g ^ 2 + vy g ^ 2 + vz g ^ 2 = s_gNorm s ^ 2).
Proof.
  unfold factoryGravity. destruct (s_xyzInput s); split; try discriminate; auto. intros _. simpl. set (t := s_gAngle s * PI / 180).
  split; [ring|]. split; [ring|]. split; auto.
  transitivity (s_gNorm s * s_gNorm s * ((sin t)² + (cos t)²)); [unfold Rsqr; ring|]. rewrite sin2_cos2. ring.
Qed.
Lemma C35_down_lemma (s : @settings Rnum) : s_xyzInput s = false -> let g := @factoryGravity Rnum sin cos PI s in
  (s_gAngle s = 0 -> g = @mkV Rnum 0 (- s_gNorm s) 0) /\ (s_gAngle s = 90 -> g = @mkV Rnum (s_gNorm s) 0 0) /\ (s_gAngle s = 180 -> g = @mkV Rnum 0 (s_gNorm s) 0).
Proof.
  intros X. unfold factoryGravity. rewrite X. simpl. split; [|split]; intros ->.
  - replace (0 * PI / 180) with 0 by field. rewrite sin_0, cos_0. f_equal; ring.
  - replace (90 * PI / 180) with (PI / 2) by field. rewrite sin_PI2, cos_PI2. f_equal; ring.
  - replace (180 * PI / 180) with PI by field. rewrite sin_PI, cos_PI. f_equal; ring.
Qed.

(** ** C51: implicit steps complete *)
Definition patched : @solver Rnum := fun n ts b => match gauss n ts b with Some x => Some x | None => Some (repeat 0 n) end.
Lemma patched_sized : sized patched.
Proof.
  intros n ts b x H. unfold patched in H. destruct (gauss n ts b) eqn:E; inv H; [exact (exact_sized _ gauss_exact _ _ _ _ E)|apply repeat_length].
Qed.

Lemma C51_implicit_lemma (m : @mps Rnum) det q : ready m -> m_calc m = Implicit det q -> sensible (m_calc m) (s_reMax (m_settings m)) ->
  0 < q_compress q -> (0 <= q_dim q)%Z -> s_asserts (m_settings m) = false -> q_asserts q = false -> (forall p, In p (m_ps m) -> 0 < p_dens p) ->
  (forall n1 b n2 c n3 c1, stepMove m = Ok (n1, b) -> stepCollide m n1 b = Ok (n2, c) -> setNeighbors n2 c = Ok (n3, c1) -> apart c1) ->
  exists m', stepForward gauss m = Ok m'.
Proof.
  intros Rd K SN QC QD A B DN AP.
  destruct (C51_exact_lemma patched m Rd patched_sized) as [[m' H]|[[X _]|(_ & (n & ts & b & X) & _)]].
  2:{ exfalso. unfold dbg_of in X. rewrite K, A, B in X. discriminate. }
  2:{ exfalso. unfold patched in X. destruct (gauss n ts b); discriminate. }
  exists m'. rewrite <- H. pose proof (ready_reMax m Rd) as RM. pose proof Rd as ((I & AR & U) & (PD & D & L0 & RN & RG & RL) & RV1 & RV2 & RV3).
  unfold stepForward in H |- *. destruct (stepMove m) as [[n1 b]| | | | | ] eqn:E; auto. cbn [bind] in H |- *.
  destruct (stepCollide m n1 b) as [[n2 c]| | | | | ] eqn:E0; auto. cbn [bind] in H |- *.
  assert (EQ : stepPressure gauss m n2 c = stepPressure patched m n2 c); [|now rewrite EQ]. clear H m'.
  assert (U1 := move_searcher _ _ m _ _ U E). assert (I1 := move_indexed _ _ _ I E).
  assert (U2 := collide_searcher _ _ m _ _ _ _ U1 E0). assert (I2 := collide_indexed _ _ _ _ _ I1 E0).
  assert (D1 : forall p, In p b -> 0 < p_dens p).
  { clear - E DN. unfold stepMove in E. binds E. destruct r as [na a]. binds E. inv E. eapply dens_kept; [|exact DN].
    eapply Forall2_trans; [apply same_id_trans|eapply search_same_id; eauto|].
    eapply Forall2_trans; [apply same_id_trans|eapply Forall2_impl; [|apply (calGravity_evolves (m_gravity m))]; intros ? ? X; apply X|].
    eapply Forall2_trans; [apply same_id_trans|eapply Forall2_impl; [|eapply calViscosity_evolves; eauto]; intros ? ? X; apply X|].
    eapply Forall2_impl; [|apply moveParticle_evolves]; intros ? ? X; apply X. }
  assert (AP1 := fun n3 c1 => AP n1 b n2 c n3 c1 eq_refl E0). clear AP.
  unfold stepCollide in E0. binds E0. destruct r as [nb b1]. binds E0. inv E0. rename E1 into EB. rename E2 into EC.
  assert (DC := dens_kept _ _ (collision_same_id _ _ _ EC) (dens_kept _ _ (search_same_id _ _ _ _ EB) D1)).
  unfold stepPressure. destruct (setNeighbors n2 c) as [[n3 c1]| | | | | ] eqn:ED; auto. cbn [bind].
  assert (A1 := AP1 n3 c1 eq_refl). assert (LI := search_listed _ _ _ _ _ _ RM PD U2 I2 ED). assert (I3 := search_indexed _ _ _ _ ED I2).
  assert (DC1 := dens_kept _ _ (search_same_id _ _ _ _ ED) DC).
  destruct (calNumberDensity _ _ c1) as [c2| | | | | ] eqn:EN; auto. cbn [bind].
  destruct (density_counted _ _ _ _ LI A1 (proj2 RN) EN) as (CT & L2 & A2). assert (MV2 := calNumberDensity_move _ _ _ _ EN).
  assert (I4 : indexed c2). { intros k p Hp. destruct (Forall2_nth_r _ _ _ _ _ MV2 Hp) as (p0 & Hp0 & ((_ & _ & -> & _) & _)). auto. }
  assert (D4 : forall p, In p c2 -> 0 < p_dens p). { intros p Hp. apply In_nth_error in Hp. destruct Hp as [i Hp]. destruct (Forall2_nth_r _ _ _ _ _ MV2 Hp) as (p0 & Hp0 & ((_ & _ & _ & ->) & _)). eauto using nth_error_In. }
  assert (EC2 : calc gauss (m_calc m) c2 = calc patched (m_calc m) c2); [|now rewrite EC2].
  rewrite K in SN |- *. destruct SN as (Q1 & Q2 & Q3 & Q4 & Q5). cbn [calc]. unfold implicitCalc. destruct (generateBC det c2) as [[c3 d]| | | | | ] eqn:EG; auto. cbn [bind].
  unfold ppe_solve. destruct (ppe_setup q d c3) as [[ts bb]| | | | | ] eqn:EP; auto. cbn [bind].
  destruct (ppe_dominant det q _ c2 c3 d ts bb L2 I4 A2 Q1 QC Q5 Q3 Q4 QD) as (LN & LB & DM); auto.
  assert (LN' : List.length c3 = List.length c2) by exact LN. rewrite LN'. destruct (gauss_total _ ts bb LB DM) as [x EX]. unfold patched. rewrite EX. reflexivity.
Qed.
