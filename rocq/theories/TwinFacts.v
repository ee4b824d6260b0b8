(** * Two particles in one place, without assertions (C86) *)
From Coq Require Import Reals Psatz.
From Flocq Require Import Core BinarySingleNaN.
From Verif Require Import NeighborF NeighborMargin NeighborProps NeighborThms SafetyFacts StepFacts StageFacts TotalR NanFacts SpecEnds.
Open Scope list_scope.
Open Scope Z_scope.
#[local] Remove Hints Rnum : typeclass_instances.

Definition vnan : vecF := @mkV F64 B754_nan B754_nan B754_nan.
Lemma nan_plus_r (x : f64) : @nadd F64 x B754_nan = B754_nan. Proof. destruct x; reflexivity. Qed.
Lemma nan_add_r (v : vecF) : @vadd F64 v vnan = vnan.
Proof. unfold vadd, vnan. cbn [vx vy vz]. now rewrite !nan_plus_r. Qed.
Lemma nan_add_l (v : vecF) : @vadd F64 vnan v = vnan.
Proof. reflexivity. Qed.
Lemma nan_mul (x : f64) : @vmulr F64 vnan x = vnan.
Proof. reflexivity. Qed.
Lemma self_sub (x : f64) : @nsub F64 x x = B754_zero false \/ @nsub F64 x x = B754_nan.
Proof.
  destruct x as [[]|[]| |s m e B]; try (left; reflexivity); try (right; reflexivity). left. cbn [nsub F64].
  set (x := B754_finite s m e B). assert (F : is_finite x = true) by reflexivity.
  pose proof (Bminus_correct 53 1024 eq_refl eq_refl mode_NE x x F F) as C. rewrite Rminus_eq_0, round_0, Rabs_R0 in C by typeclasses eauto.
  rewrite Rlt_bool_true in C by apply bpow_gt_0. destruct C as (C1 & C2 & C3). rewrite Rcompare_Eq in C3 by reflexivity.
  apply B2R_Bsign_inj; [exact C2|reflexivity|exact C1|]. etransitivity; [exact C3|]. destruct s; reflexivity.
Qed.
Lemma fin_self (x : f64) : fin x = true -> @nsub F64 x x = B754_zero false.
Proof. intros F. destruct (self_sub x) as [H|H]; [exact H|]. exfalso. assert (K : fin (@nsub F64 x x) = true); [|rewrite H in K; discriminate].
  pose proof (Bminus_correct 53 1024 eq_refl eq_refl mode_NE x x F F) as C. rewrite Rminus_eq_0, round_0, Rabs_R0 in C by typeclasses eauto.
  rewrite Rlt_bool_true in C by apply bpow_gt_0. exact (proj1 (proj2 C)).
Qed.
Lemma zero_inf (x : f64) : @nmul F64 (@nsub F64 x x) (B754_infinity false) = B754_nan.
Proof. destruct (self_sub x) as [-> | ->]; reflexivity. Qed.
(** equal velocities, weight infinite *)
Lemma twin_term (v : vecF) : @vmulr F64 (@vsub F64 v v) (B754_infinity false) = vnan.
Proof. unfold vmulr, vsub, vnan. cbn [vx vy vz]. now rewrite !zero_inf. Qed.
Lemma self_dist (p q : partF) : p_pos q = p_pos p -> fin (vx (p_pos p)) = true -> fin (vy (p_pos p)) = true -> fin (vz (p_pos p)) = true -> @pdist F64 p q = B754_zero false.
Proof. intros E A B C. unfold pdist, vnorm, vsub. rewrite E. cbn [vx vy vz]. rewrite !fin_self by assumption. reflexivity. Qed.
Lemma inf_weight (re : f64) : @nlt F64 (B754_zero false) re = true -> @weight F64 false (B754_zero false) re = Ok (B754_infinity false).
Proof. intros H. destruct re as [[]|[]| |[] m e B]; try discriminate H; reflexivity. Qed.

Lemma visc_keeps s re (ps : list partF) pi nb v : @visc_term F64 s re ps pi nb vnan = Ok v -> v = vnan.
Proof. unfold visc_term. intros H. binds H. destruct (nlt _ _); [|congruence]. binds H. rewrite nan_add_l in H. congruence. Qed.
Lemma visc_twin s (ps : list partF) pi l acc v j q : s_asserts s = false -> @nlt F64 (B754_zero false) (s_reL s) = true -> nth_error ps j = Some q -> p_vel q = p_vel pi ->
  In (@mkNb F64 (Z.of_nat j) (B754_zero false)) l -> foldM (@visc_term F64 s (s_reL s) ps pi) l acc = Ok v -> v = vnan.
Proof.
  intros AS RE Q V I H. apply in_split in I as (l1 & l2 & ->). rewrite foldM_app in H. binds H. cbn [foldM] in H. binds H.
  match goal with X : visc_term _ _ _ _ (mkNb _ _) _ = Ok ?b |- _ => assert (B : b = vnan) end.
  { match goal with X : visc_term _ _ _ _ (mkNb _ _) _ = Ok _ |- _ => revert X end. unfold visc_term. cbn [nb_id nb_dist]. unfold vget. destruct (Z.ltb_spec (Z.of_nat j) 0); [lia|]. rewrite Nat2Z.id, Q. cbn [bind]. rewrite RE, AS, inf_weight by exact RE. cbn [bind].
    rewrite V, twin_term, nan_add_r. congruence. }
  subst. revert H. apply foldM_inv with (P := fun w => w = vnan); [reflexivity|]. intros nb t t' _ -> X. exact (visc_keeps _ _ _ _ _ _ X).
Qed.

Lemma near_self c : In c (around c).
Proof. destruct c as [[x y] z]. unfold around, three. apply in_flat_map. exists x. split; [simpl; auto|]. apply in_flat_map. exists y. split; [simpl; auto|]. apply in_map_iff. exists z. split; [reflexivity|simpl; auto]. Qed.
Lemma moved_nan s (p : partF) : p_type p = Fluid -> p_acc p = vnan -> p_pos (moveParticle1 s p) = vnan /\ p_type (moveParticle1 s p) = Fluid.
Proof. intros T A. unfold moveParticle1, is_type. rewrite T, A. change (Fluid =? Fluid) with true. cbn [set_pos set_vel set_acc p_pos p_type]. rewrite nan_mul, nan_add_r, nan_mul, nan_add_r. auto. Qed.
Lemma vnan_trapped d (p : partF) : p_type p = Fluid -> p_pos p = vnan -> trapped d p.
Proof.
  intros T E. split; [rewrite T; discriminate|]. rewrite E. split; [|intros (H & _); discriminate H]. apply inDomain_outside. unfold isInDomain, vnan. cbn [vx vy vz].
  assert (A : forall x : f64, @nlt F64 B754_nan x = false) by (intros []; reflexivity). assert (B : forall x : f64, @nlt F64 x B754_nan = false) by (intros []; reflexivity). rewrite !A, !B. reflexivity.
Qed.
Lemma twins_meet (m : @mps F64) i j p q : sound m -> radiusF (s_reMax (m_settings m)) -> proper_domainF (s_domain (m_settings m)) ->
  s_asserts (m_settings m) = false -> @nlt F64 (B754_zero false) (s_reL (m_settings m)) = true ->
  nth_error (m_ps m) i = Some p -> nth_error (m_ps m) j = Some q -> i <> j -> p_type p = Fluid -> p_type q <> Ghost ->
  p_pos q = p_pos p -> p_vel q = p_vel p -> ~ outside (s_domain (m_settings m)) (p_pos p) -> meets_nan m.
Proof.
  intros SD RF PD AS RE HP HQ NE TP TQ EP EV OUT. set (s := m_settings m) in *.
  destruct (Classical_Prop.classic (Exists (trapped (s_domain s)) (m_ps m))) as [X|X]; [exists (m_ns m), (m_ps m); auto|].
  pose proof SD as (I & _ & US). fold s in US. pose proof (used_shape _ _ _ _ US) as G. apply Forall_Exists_neg in X.
  pose proof (searcher_ok_F _ _ _ _ RF PD G) as SO. pose proof (cells_untrapped _ _ _ _ RF PD G X) as C.
  destruct (setNeighbors_run (m_ns m) (m_ps m) SO I C) as (ns' & E & _).
  pose proof G as G'. destruct G' as []. rewrite Forall_forall in X.
  assert (NN : no_nan (p_pos p)).
  { destruct (no_nan_dec (p_pos p)) as [H|H]; [exact H|]. destruct (X p); [eapply nth_error_In; eauto|]. split; [rewrite TP; discriminate|]. split; [exact OUT|exact H]. }
  pose proof OUT as DP. apply inDomain_outside in DP. assert (DQ : isInDomain (s_domain s) (p_pos q) = true) by (rewrite EP; exact DP).
  destruct (grid_quotients _ _ _ _ _ RF PD G NN DP) as (FV & _).
  assert (LP : live (s_domain s) p = true). { unfold live, is_type. rewrite TP, DP. reflexivity. }
  assert (LQ : live (s_domain s) q = true). { unfold live, is_type. apply Z.eqb_neq in TQ. rewrite TQ, DQ. reflexivity. }
  assert (PZ : @pdist F64 p q = B754_zero false) by (destruct FV as (A & B & D); now apply self_dist).
  assert (IN : In (@mkNb F64 (Z.of_nat j) (B754_zero false)) (nlist (m_ns m) (m_ps m) p)).
  { apply (nlist_in _ _ i p _ SO I C HP); [rewrite gs_dom; exact LP|]. exists j, q. rewrite gs_dom, gs_re, PZ. split; [exact HQ|]. split; [exact LQ|]. split; [auto|]. split.
    - destruct (cell_F _ _ _ _ _ RF PD G NN DP) as [Cp _]. eexists _, _. split; [exact Cp|]. rewrite EP. split; [exact Cp|]. apply near_self.
    - split; [|reflexivity]. exact (proj2 RF). }
  assert (N1 := search_ids _ _ _ _ E). assert (LG := gravity_lists (m_gravity m) (map (searched (m_ns m) (m_ps m)) (m_ps m))).
  assert (FVI := viscosity_fine s (m_rvL m) (s_reL s) _ (lists_nbrs _ _ LG N1)). rewrite AS in FVI.
  set (p1 := calGravity (m_gravity m) (map (searched (m_ns m) (m_ps m)) (m_ps m))) in *.
  destruct (calViscosity s (m_rvL m) (s_reL s) p1) as [p2| | | | |] eqn:V; try contradiction; [|discriminate FVI].
  assert (EM : stepMove m = Ok (ns', moveParticle s p2)) by (unfold stepMove; rewrite E; cbn [bind]; fold s p1; rewrite V; reflexivity).
  exists ns', (moveParticle s p2). split; [auto|].
  assert (P1 : nth_error p1 i = Some (calGravity1 (m_gravity m) (set_nbrs p (nlist (m_ns m) (m_ps m) p)))).
  { unfold p1, calGravity. rewrite !nth_error_map, HP. cbn [option_map]. unfold searched. rewrite gs_dom, LP. reflexivity. }
  assert (Q1 : nth_error p1 j = Some (calGravity1 (m_gravity m) (set_nbrs q (nlist (m_ns m) (m_ps m) q)))).
  { unfold p1, calGravity. rewrite !nth_error_map, HQ. cbn [option_map]. unfold searched. rewrite gs_dom, LQ. reflexivity. }
  rewrite calViscosity_mapM in V. apply mapM_ok in V. destruct (BaseFacts.Forall2_nth _ _ _ _ _ V P1) as (p' & P2 & P3).
  set (pg := calGravity1 (m_gravity m) (set_nbrs p (nlist (m_ns m) (m_ps m) p))) in *.
  assert (TG : p_type pg = Fluid) by (unfold pg, calGravity1; destruct (is_type _ _); exact TP).
  assert (VG : p_vel pg = p_vel p) by (unfold pg, calGravity1; destruct (is_type _ _); reflexivity).
  assert (NG : p_nbrs pg = nlist (m_ns m) (m_ps m) p) by (unfold pg, calGravity1; destruct (is_type _ _); reflexivity).
  unfold calViscosity1 in P3. unfold is_type in P3. rewrite TG in P3. change (negb (Fluid =? Fluid)) with false in P3. cbv iota in P3. binds P3.
  match goal with X : foldM _ (p_nbrs pg) _ = Ok _ |- _ => apply (visc_twin _ _ _ _ _ _ _ _ AS RE Q1) in X; [|rewrite VG; unfold calGravity1; destruct (is_type _ _); exact EV|rewrite NG; exact IN]; subst end.
  rewrite nan_mul, nan_add_r in P3. injection P3 as P3.
  apply Exists_exists. exists (moveParticle1 s p'). split; [unfold moveParticle; apply in_map; eapply nth_error_In; eauto|].
  subst p'. destruct (moved_nan s (set_acc pg vnan)) as (M1 & M2); [exact TG|reflexivity|]. now apply vnan_trapped.
Qed.

(** with assertions *)
Lemma assert_weight (re : f64) : @weight F64 true (B754_zero false) re = AssertFail.
Proof. reflexivity. Qed.
Lemma visc_stops s (ps : list partF) pi l acc v j q : s_asserts s = true -> @nlt F64 (B754_zero false) (s_reL s) = true -> nth_error ps j = Some q ->
  In (@mkNb F64 (Z.of_nat j) (B754_zero false)) l -> foldM (@visc_term F64 s (s_reL s) ps pi) l acc = Ok v -> False.
Proof.
  intros AS RE Q I H. apply in_split in I as (l1 & l2 & ->). rewrite foldM_app in H. binds H. cbn [foldM] in H. binds H.
  match goal with X : visc_term _ _ _ _ (mkNb _ _) _ = Ok _ |- _ => revert X end. unfold visc_term. cbn [nb_id nb_dist]. unfold vget. destruct (Z.ltb_spec (Z.of_nat j) 0); [lia|]. rewrite Nat2Z.id, Q. cbn [bind]. rewrite RE, AS, assert_weight. cbn [bind]. discriminate.
Qed.
Lemma twins_assert S (m : @mps F64) i j p q : sound m -> radiusF (s_reMax (m_settings m)) -> proper_domainF (s_domain (m_settings m)) ->
  s_asserts (m_settings m) = true -> @nlt F64 (B754_zero false) (s_reL (m_settings m)) = true -> numeric (m_ps m) ->
  nth_error (m_ps m) i = Some p -> nth_error (m_ps m) j = Some q -> i <> j -> p_type p = Fluid -> p_type q <> Ghost ->
  p_pos q = p_pos p -> ~ outside (s_domain (m_settings m)) (p_pos p) -> stepForward S m = AssertFail.
Proof.
  intros SD RF PD AS RE NU HP HQ NE TP TQ EP OUT. set (s := m_settings m) in *.
  assert (X : Forall (fun x => ~ trapped (s_domain s) x) (m_ps m)).
  { apply Forall_forall. intros x Hx (A & _ & B). apply B. now apply NU. }
  pose proof SD as (I & _ & US). fold s in US. pose proof (used_shape _ _ _ _ US) as G.
  pose proof (searcher_ok_F _ _ _ _ RF PD G) as SO. pose proof (cells_untrapped _ _ _ _ RF PD G X) as C.
  destruct (setNeighbors_run (m_ns m) (m_ps m) SO I C) as (ns' & E & _).
  pose proof G as G'. destruct G' as []. rewrite Forall_forall in X.
  assert (NN : no_nan (p_pos p)).
  { apply NU; [eapply nth_error_In; eauto|rewrite TP; discriminate]. }
  pose proof OUT as DP. apply inDomain_outside in DP. assert (DQ : isInDomain (s_domain s) (p_pos q) = true) by (rewrite EP; exact DP).
  destruct (grid_quotients _ _ _ _ _ RF PD G NN DP) as (FV & _).
  assert (LP : live (s_domain s) p = true). { unfold live, is_type. rewrite TP, DP. reflexivity. }
  assert (LQ : live (s_domain s) q = true). { unfold live, is_type. apply Z.eqb_neq in TQ. rewrite TQ, DQ. reflexivity. }
  assert (PZ : @pdist F64 p q = B754_zero false) by (destruct FV as (A & B & D); now apply self_dist).
  assert (IN : In (@mkNb F64 (Z.of_nat j) (B754_zero false)) (nlist (m_ns m) (m_ps m) p)).
  { apply (nlist_in _ _ i p _ SO I C HP); [rewrite gs_dom; exact LP|]. exists j, q. rewrite gs_dom, gs_re, PZ. split; [exact HQ|]. split; [exact LQ|]. split; [auto|]. split.
    - destruct (cell_F _ _ _ _ _ RF PD G NN DP) as [Cp _]. eexists _, _. split; [exact Cp|]. rewrite EP. split; [exact Cp|]. apply near_self.
    - split; [|reflexivity]. exact (proj2 RF). }
  assert (N1 := search_ids _ _ _ _ E). assert (LG := gravity_lists (m_gravity m) (map (searched (m_ns m) (m_ps m)) (m_ps m))).
  assert (FVI := viscosity_fine s (m_rvL m) (s_reL s) _ (lists_nbrs _ _ LG N1)). rewrite AS in FVI.
  set (p1 := calGravity (m_gravity m) (map (searched (m_ns m) (m_ps m)) (m_ps m))) in *.
  destruct (calViscosity s (m_rvL m) (s_reL s) p1) as [p2| | | | |] eqn:V; try contradiction.
  2:{ unfold stepForward, stepMove. rewrite E. cbn [bind]. fold s p1. rewrite V. reflexivity. }
  exfalso.
  assert (P1 : nth_error p1 i = Some (calGravity1 (m_gravity m) (set_nbrs p (nlist (m_ns m) (m_ps m) p)))).
  { unfold p1, calGravity. rewrite !nth_error_map, HP. cbn [option_map]. unfold searched. rewrite gs_dom, LP. reflexivity. }
  assert (Q1 : nth_error p1 j = Some (calGravity1 (m_gravity m) (set_nbrs q (nlist (m_ns m) (m_ps m) q)))).
  { unfold p1, calGravity. rewrite !nth_error_map, HQ. cbn [option_map]. unfold searched. rewrite gs_dom, LQ. reflexivity. }
  rewrite calViscosity_mapM in V. apply mapM_ok in V. destruct (BaseFacts.Forall2_nth _ _ _ _ _ V P1) as (p' & P2 & P3).
  set (pg := calGravity1 (m_gravity m) (set_nbrs p (nlist (m_ns m) (m_ps m) p))) in *.
  assert (TG : p_type pg = Fluid) by (unfold pg, calGravity1; destruct (is_type _ _); exact TP).
  assert (NG : p_nbrs pg = nlist (m_ns m) (m_ps m) p) by (unfold pg, calGravity1; destruct (is_type _ _); reflexivity).
  unfold calViscosity1 in P3. unfold is_type in P3. rewrite TG in P3. change (negb (Fluid =? Fluid)) with false in P3. cbv iota in P3. binds P3.
  match goal with X : foldM _ (p_nbrs pg) _ = Ok _ |- _ => apply (visc_stops _ _ _ _ _ _ _ _ AS RE Q1) in X; [exact X|rewrite NG; exact IN] end.
Qed.
