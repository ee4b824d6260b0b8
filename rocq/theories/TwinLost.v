(** * Two particles in one place, with any velocities, without assertions (C86) *)
From Coq Require Import Reals Psatz.
From Flocq Require Import Core BinarySingleNaN.
From Verif Require Import NeighborF NeighborMargin NeighborProps NeighborThms SafetyFacts StepFacts StageFacts TotalR NanFacts TwinFacts SpecEnds.
Open Scope list_scope.
Open Scope Z_scope.
#[local] Remove Hints Rnum : typeclass_instances.

(** no coordinate is finite *)
Definition blown (v : vecF) : Prop := fin (vx v) = false /\ fin (vy v) = false /\ fin (vz v) = false.
Lemma add_r (x y : f64) : fin y = false -> fin (@nadd F64 x y) = false.
Proof. destruct y as [|[]| |]; intros H; try discriminate H; destruct x as [|[]| |]; reflexivity. Qed.
Lemma add_l (x y : f64) : fin x = false -> fin (@nadd F64 x y) = false.
Proof. destruct x as [|[]| |]; intros H; try discriminate H; destruct y as [|[]| |]; reflexivity. Qed.
Lemma mul_l (x y : f64) : fin x = false -> fin (@nmul F64 x y) = false.
Proof. destruct x as [|[]| |]; intros H; try discriminate H; destruct y as [|[]| |[]]; reflexivity. Qed.
Lemma mul_inf (x : f64) : fin (@nmul F64 x (B754_infinity false)) = false.
Proof. destruct x as [|[]| |[]]; reflexivity. Qed.
Lemma blown_add_r u v : blown v -> blown (@vadd F64 u v).
Proof. intros (A & B & C). repeat split; apply add_r; assumption. Qed.
Lemma blown_add_l u v : blown u -> blown (@vadd F64 u v).
Proof. intros (A & B & C). repeat split; apply add_l; assumption. Qed.
Lemma blown_mul u x : blown u -> blown (@vmulr F64 u x).
Proof. intros (A & B & C). repeat split; apply mul_l; assumption. Qed.
Lemma blown_inf u : blown (@vmulr F64 u (B754_infinity false)).
Proof. repeat split; apply mul_inf. Qed.

Lemma visc_blown1 s re (ps : list partF) pi nb a v : blown a -> @visc_term F64 s re ps pi nb a = Ok v -> blown v.
Proof. intros A. unfold visc_term. intros H. binds H. destruct (nlt _ _); [|injection H as <-; exact A]. binds H. injection H as <-. now apply blown_add_l. Qed.
Lemma visc_blown s (ps : list partF) pi l acc v j q : s_asserts s = false -> @nlt F64 (B754_zero false) (s_reL s) = true -> nth_error ps j = Some q ->
  In (@mkNb F64 (Z.of_nat j) (B754_zero false)) l -> foldM (@visc_term F64 s (s_reL s) ps pi) l acc = Ok v -> blown v.
Proof.
  intros AS RE Q I H. apply in_split in I as (l1 & l2 & ->). rewrite foldM_app in H. binds H. cbn [foldM] in H. binds H.
  match goal with X : visc_term _ _ _ _ (mkNb _ _) _ = Ok ?b |- _ => assert (B : blown b) end.
  { match goal with X : visc_term _ _ _ _ (mkNb _ _) _ = Ok _ |- _ => revert X end. unfold visc_term. cbn [nb_id nb_dist]. unfold vget. destruct (Z.ltb_spec (Z.of_nat j) 0); [lia|]. rewrite Nat2Z.id, Q. cbn [bind]. rewrite RE, AS, inf_weight by exact RE. cbn [bind].
    intros X. injection X as <-. apply blown_add_r, blown_inf. }
  revert H. apply foldM_inv with (P := blown); [exact B|]. intros nb t t' _ A X. exact (visc_blown1 _ _ _ _ _ _ _ A X).
Qed.
Lemma moved_blown s (p : partF) : p_type p = Fluid -> blown (p_acc p) -> blown (p_pos (moveParticle1 s p)) /\ p_type (moveParticle1 s p) = Fluid.
Proof. intros T A. unfold moveParticle1, is_type. rewrite T. change (Fluid =? Fluid) with true. cbn [set_pos set_vel set_acc p_pos p_type]. split; [|exact T]. now apply blown_add_r, blown_mul, blown_add_r, blown_mul. Qed.
Lemma blown_ends d (p : partF) : proper_domainF d -> p_type p = Fluid -> blown (p_pos p) -> outside d (p_pos p) \/ trapped d p.
Proof.
  intros (F1 & F2 & _) T (A & _ & _). destruct (Classical_Prop.classic (outside d (p_pos p))) as [O|O]; [auto|right]. split; [rewrite T; discriminate|]. split; [exact O|].
  intros (N & _). apply inDomain_outside in O. unfold isInDomain in O. rewrite !andb_true_iff, !negb_true_iff, !orb_false_iff in O. destruct O as [[[A1 A2] _] _].
  rewrite (between_fin _ _ _ F1 F2 N A1 A2) in A. discriminate.
Qed.

(** what is a ghost after the search that follows the prediction is one after the step *)
Lemma collide_ghost S (m m' : @mps F64) ns1 ps1 ns2 ps2 i p : sound m -> stepMove m = Ok (ns1, ps1) -> stepForward S m = Ok m' -> nth_error ps1 i = Some p -> outside (s_domain (m_settings m)) (p_pos p) ->
  stepCollide m ns1 ps1 = Ok (ns2, ps2) -> exists p', nth_error (m_ps m') i = Some p' /\ p_type p' = Ghost.
Proof.
  intros SD M H P O C. destruct (stages_kept m ns1 ps1 SD) as (U1 & _); [auto|].
  assert (G2 : exists p2, nth_error ps2 i = Some p2 /\ p_type p2 = Ghost).
  { unfold stepCollide in C. binds C. destruct r as [ns ps]. binds C. injection C as <- <-.
    destruct (search_frame _ _ _ _ _ _ U1 E) as (_ & F). destruct (F i p P) as (p2 & P2 & A & B & _).
    assert (T : p_type p2 = Ghost) by (destruct (Z.eq_dec (p_type p) Ghost) as [X|X]; [rewrite (A X); exact X|rewrite (B X O); reflexivity]).
    apply collision_same_id in E0. destruct (BaseFacts.Forall2_nth _ _ _ _ _ E0 P2) as (p3 & P3 & (_ & _ & _ & K)). exists p3. split; [exact P3|]. destruct K; congruence. }
  unfold stepForward in H. rewrite M in H. cbn [bind] in H. rewrite C in H. cbn [bind] in H. binds H. destruct r as [ns3 ps3]. binds H. destruct (calCourant (m_settings m) r) as [c err]. injection H as <-. cbn [m_ps].
  assert (L : forall l l' : list partF, Forall2 evolves l l' -> Forall2 same_id l l') by (intros l l' X; eapply Forall2_impl; [|exact X]; intros a b Y; apply Y).
  assert (Tr : forall l1 l2 l3 : list partF, Forall2 same_id l1 l2 -> Forall2 same_id l2 l3 -> Forall2 same_id l1 l3) by (intros; eapply Forall2_trans; eauto; apply same_id_trans).
  assert (F : Forall2 same_id ps2 r).
  { apply Tr with ps3.
    - unfold stepPressure in E. binds E. destruct r0 as [ns0 ps0]. binds E. binds E. destruct r1 as [ps5 x]. binds E. injection E as <- <-.
      apply setNeighbors_evolves, L in E1. apply calNumberDensity_evolves, L in E2. apply calc_evolves, L in E3. apply assignPressure_evolves, L in E4.
      eapply Tr; [exact E1|]. eapply Tr; [exact E2|]. eapply Tr; eauto.
    - unfold stepCorrect in E0. binds E0. binds E0. apply minp_evolves, L in E1. apply calPressureGradient_evolves, L in E2.
      eapply Tr; [exact E1|]. eapply Tr; [exact E2|]. eapply Tr; [apply L, (correct_evolves (m_settings m))|]. destruct (m_calc m).
      + injection E0 as <-. apply L, Forall2_same, evolves_refl.
      + binds E0. apply assignPressure_evolves, L in E0. exact E0. }
  destruct G2 as (p2 & P2 & T). destruct (BaseFacts.Forall2_nth _ _ _ _ _ F P2) as (p3 & P3 & (_ & _ & _ & K)). exists p3. split; [exact P3|]. destruct K; congruence.
Qed.

Lemma twins_lost S (m m' : @mps F64) i j p q : sound m -> radiusF (s_reMax (m_settings m)) -> proper_domainF (s_domain (m_settings m)) ->
  s_asserts (m_settings m) = false -> @nlt F64 (B754_zero false) (s_reL (m_settings m)) = true ->
  nth_error (m_ps m) i = Some p -> nth_error (m_ps m) j = Some q -> i <> j -> p_type p = Fluid -> p_type q <> Ghost ->
  p_pos q = p_pos p -> ~ outside (s_domain (m_settings m)) (p_pos p) ->
  stepForward S m = Ok m' -> exists p', nth_error (m_ps m') i = Some p' /\ p_type p' = Ghost.
Proof.
  intros SD RF PD AS RE HP HQ NE TP TQ EP OUT ST. set (s := m_settings m) in *.
  assert (NM : ~ meets_nan m) by (intros X; rewrite (step_trapped S m SD RF PD X) in ST; discriminate ST).
  assert (X : Forall (fun x => ~ trapped (s_domain s) x) (m_ps m)) by (apply Forall_Exists_neg; intros X; apply NM; exists (m_ns m), (m_ps m); auto).
  pose proof SD as (I & _ & US). fold s in US. pose proof (used_shape _ _ _ _ US) as G.
  pose proof (searcher_ok_F _ _ _ _ RF PD G) as SO. pose proof (cells_untrapped _ _ _ _ RF PD G X) as C.
  destruct (setNeighbors_run (m_ns m) (m_ps m) SO I C) as (ns' & E & _).
  pose proof G as G'. destruct G' as []. rewrite Forall_forall in X.
  assert (NN : no_nan (p_pos p)).
  { destruct (no_nan_dec (p_pos p)) as [H|H]; [exact H|]. destruct (X p); [eapply nth_error_In; eauto|]. split; [rewrite TP; discriminate|]. split; [exact OUT|exact H]. }
  pose proof OUT as DP. apply inDomain_outside in DP. assert (DQ : isInDomain (s_domain s) (p_pos q) = true) by (rewrite EP; exact DP).
  destruct (grid_quotients _ _ _ _ _ RF PD G NN DP) as (FV & _).
  assert (LP : live (s_domain s) p = true). { unfold live, is_type. rewrite TP, DP. reflexivity. }
  assert (LQ : live (s_domain s) q = true). { unfold live, is_type. apply Z.eqb_neq in TQ. rewrite TQ, DQ. reflexivity. }
  assert (PZ : @pdist F64 p q = B754_zero false) by (destruct FV as (A & B & D); now apply self_dist).
  assert (IN : In (@mkNb F64 (Z.of_nat j) (B754_zero false)) (nlist (m_ns m) (m_ps m) p)).
  { apply (nlist_in _ _ i p _ SO I C HP); [rewrite gs_dom; exact LP|]. exists j, q. rewrite gs_dom, gs_re, PZ. split; [exact HQ|]. split; [exact LQ|]. split; [auto|]. split.
    - destruct (cell_F _ _ _ _ _ RF PD G NN DP) as [Cp _]. eexists _, _. split; [exact Cp|]. rewrite EP. split; [exact Cp|]. apply near_self.
    - split; [|reflexivity]. exact (proj2 RF). }
  assert (N1 := search_ids _ _ _ _ E). assert (LG := gravity_lists (m_gravity m) (map (searched (m_ns m) (m_ps m)) (m_ps m))).
  assert (FVI := viscosity_fine s (m_rvL m) (s_reL s) _ (lists_nbrs _ _ LG N1)). rewrite AS in FVI.
  set (p1 := calGravity (m_gravity m) (map (searched (m_ns m) (m_ps m)) (m_ps m))) in *.
  destruct (calViscosity s (m_rvL m) (s_reL s) p1) as [p2| | | | |] eqn:V; try contradiction; [|discriminate FVI].
  assert (EM : stepMove m = Ok (ns', moveParticle s p2)) by (unfold stepMove; rewrite E; cbn [bind]; fold s p1; rewrite V; reflexivity).
  assert (P1 : nth_error p1 i = Some (calGravity1 (m_gravity m) (set_nbrs p (nlist (m_ns m) (m_ps m) p)))).
  { unfold p1, calGravity. rewrite !nth_error_map, HP. cbn [option_map]. unfold searched. rewrite gs_dom, LP. reflexivity. }
  assert (Q1 : nth_error p1 j = Some (calGravity1 (m_gravity m) (set_nbrs q (nlist (m_ns m) (m_ps m) q)))).
  { unfold p1, calGravity. rewrite !nth_error_map, HQ. cbn [option_map]. unfold searched. rewrite gs_dom, LQ. reflexivity. }
  rewrite calViscosity_mapM in V. apply mapM_ok in V. destruct (BaseFacts.Forall2_nth _ _ _ _ _ V P1) as (p' & P2 & P3).
  set (pg := calGravity1 (m_gravity m) (set_nbrs p (nlist (m_ns m) (m_ps m) p))) in *.
  assert (TG : p_type pg = Fluid) by (unfold pg, calGravity1; destruct (is_type _ _); exact TP).
  assert (NG : p_nbrs pg = nlist (m_ns m) (m_ps m) p) by (unfold pg, calGravity1; destruct (is_type _ _); reflexivity).
  unfold calViscosity1 in P3. unfold is_type in P3. rewrite TG in P3. change (negb (Fluid =? Fluid)) with false in P3. cbv iota in P3. binds P3.
  match goal with X : foldM _ (p_nbrs pg) _ = Ok _ |- _ => apply (visc_blown _ _ _ _ _ _ _ _ AS RE Q1) in X; [rename X into BL|rewrite NG; exact IN] end.
  injection P3 as P3.
  destruct (moved_blown s p') as (M1 & M2); [subst p'; exact TG|subst p'; cbn [set_acc p_acc]; now apply blown_add_r, blown_mul|].
  assert (PM : nth_error (moveParticle s p2) i = Some (moveParticle1 s p')) by (unfold moveParticle; rewrite nth_error_map, P2; reflexivity).
  assert (SC : exists ns2 ps2, stepCollide m ns' (moveParticle s p2) = Ok (ns2, ps2)).
  { pose proof ST as Y. unfold stepForward in Y. rewrite EM in Y. cbn [bind] in Y. binds Y. destruct r0. eauto. }
  destruct SC as (ns2 & ps2 & SC).
  destruct (blown_ends (s_domain s) _ PD M2 M1) as [O|O].
  - exact (collide_ghost S m m' _ _ _ _ i _ SD EM ST PM O SC).
  - destruct NM. exists ns', (moveParticle s p2). split; [auto|]. apply Exists_exists. eexists. split; [eapply nth_error_In; eauto|exact O].
Qed.
