(** * Concrete simulations *)
From Coq Require Import Reals Lra.
From Verif Require Export SimR SimF StageCases StepCasesF.
Open Scope R_scope.

Section Exact.
#[local] Remove Hints F64 : typeclass_instances.
(** the pair of fluid particles, explicit method: start at time 1, three steps of 1/100
    in sight, a file every 15 ms; the clock advances 5 ms per step *)
Definition trip (m : @mps Rnum) : @sim Rnum := @mkSim Rnum m 1 1 (103 / 100) (1 / 100) (15 / 1000) 0 0 [].
Definition tick (k : nat) : Z * Z := (5000000 * Z.of_nat k, 5000000 * (Z.of_nat k + 1))%Z.
Lemma trip_needed m : needed (trip m) = 3%Z.
Proof. unfold needed. simpl. replace ((103 / 100 - 1) / (1 / 100)) with (IZR 3) by lra. now rewrite Zceil_IZR. Qed.
Lemma trip_clock m : clock_fine 0 tick (trip m).
Proof. intros k Hk. rewrite trip_needed in *. unfold tick. lia. Qed.
Lemma trip_fresh m : fresh (trip m).
Proof. repeat split. Qed.
Lemma trip_runs : exists m st', ready m /\ m_ps m = duo /\ run no_solver 0 tick 3 (trip m) = Ok st'.
Proof.
  destruct (machine duo kex duo_indexed duo_rest) as (m & _ & RD & ES & EP & EG & EK).
  destruct (C32_completes_lemma no_solver 0 tick (trip m)) as [st' E]; auto using trip_fresh, trip_clock, no_solver_sized.
  - simpl. lra.
  - simpl. now rewrite ES.
  - simpl. intros det q K. rewrite EK in K. discriminate.
  - rewrite trip_needed. reflexivity.
  - rewrite trip_needed in E. exists m, st'. auto.
Qed.
Lemma trip_complete : exists m, ready m /\ s_asserts (m_settings m) = false /\ (forall det q, m_calc m <> Implicit det q) /\ (needed (trip m) < int_max)%Z /\ clock_fine 0 tick (trip m).
Proof.
  destruct (machine duo kex duo_indexed duo_rest) as (m & _ & RD & ES & EP & EG & EK). exists m. rewrite ES, EK, trip_needed. split; [auto|split; [auto|split; [discriminate|split; [reflexivity|apply trip_clock]]]].
Qed.
Lemma trip_reached : exists m st' k, ready m /\ reached no_solver 0 tick (trip m) k st' /\ k = 3%nat /\ List.length (si_out st') = 3%nat.
Proof.
  destruct trip_runs as (m & st' & RD & EP & E). exists m, st'. pose proof (C32_count_lemma _ _ _ _ _ _ (trip_fresh m) ltac:(simpl; lra) E) as (K & _).
  apply run_reached in E as (k & R & _). destruct (reached_inv _ _ _ _ _ _ (trip_fresh m) R) as (_ & _ & K' & _). rewrite K, trip_needed in K'. assert (k = 3%nat) by lia. subst.
  exists 3%nat. split; auto. split; auto. split; auto.
  destruct (C33_lemma _ _ _ (trip m) _ _ (trip_fresh m) ltac:(simpl; lra) ltac:(simpl; lra) R) as [Al _].
  assert (D2 : due_step (trip m) 2 = 3%Z). { unfold due_step. simpl. replace (2 * (15 / 1000) / (1 / 100)) with (IZR 3) by lra. apply Zceil_IZR. }
  assert (D3 : due_step (trip m) 3 = 5%Z). { unfold due_step. simpl. apply Zceil_imp. simpl. lra. }
  pose proof (proj2 (Al 2%nat)) as A2. rewrite D2 in A2. specialize (A2 ltac:(lia)). pose proof (proj1 (Al 3%nat)) as A3. rewrite D3 in A3.
  destruct (Nat.lt_ge_cases 3 (List.length (si_out st'))); [specialize (A3 H); lia|lia].
Qed.
(** a file period shorter than the step *)
Definition hasty (m : @mps Rnum) : @sim Rnum := @mkSim Rnum m 1 1 (103 / 100) (1 / 100) (1 / 1000) 0 0 [].
Lemma hasty_runs : exists m st', ready m /\ reached no_solver 0 tick (hasty m) 3 st'.
Proof.
  destruct (machine duo kex duo_indexed duo_rest) as (m & _ & RD & ES & EP & EG & EK).
  assert (Nd : needed (hasty m) = 3%Z) by exact (trip_needed m).
  destruct (C32_completes_lemma no_solver 0 tick (hasty m)) as [st' E]; auto using no_solver_sized.
  - repeat split.
  - simpl. lra.
  - simpl. now rewrite ES.
  - simpl. intros det q K. rewrite EK in K. discriminate.
  - rewrite Nd. reflexivity.
  - intros k Hk. rewrite Nd in *. unfold tick. lia.
  - exists m, st'. split; auto. assert (Fr : fresh (hasty m)) by repeat split. pose proof (C32_count_lemma _ _ _ _ _ _ Fr ltac:(simpl; lra) E) as (K & _).
    apply run_reached in E as (k & R & _). destruct (reached_inv _ _ _ _ _ _ Fr R) as (_ & _ & K' & _). rewrite K, Nd in K'. assert (k = 3%nat) by lia. now subst.
Qed.
(** time running backwards *)
Definition reverse (m : @mps Rnum) : @sim Rnum := @mkSim Rnum m 1 1 2 (-1 / 100) (15 / 1000) 0 0 [].
End Exact.

Section Binary64.
#[local] Remove Hints Rnum : typeclass_instances.
Open Scope Z_scope.
(** six particles; a start time so large that a step of 0.001 disappears: 2^53, 2^53 + 2 *)
Definition late (m : @mps F64) : @sim F64 := @mkSim F64 m (@nofZ F64 (2 ^ 53)) (@nofZ F64 (2 ^ 53)) (@nofZ F64 (2 ^ 53 + 2)) (bits 0x3f50624dd2f1a9fc) (bits 0x3fa47ae147ae147b) 0 0 [].
Lemma late_stands m : Bplus mode_NE (@time_at F64 (si_start (late m)) (si_dt (late m)) 0) (si_dt (late m)) = @time_at F64 (si_start (late m)) (si_dt (late m)) 0 /\
  forall j, (j <= 0)%nat -> @nlt F64 (@time_at F64 (si_start (late m)) (si_dt (late m)) j) (si_end (late m)) = true.
Proof.
  split.
  - unfold late. cbn [si_start si_dt time_at]. apply B2SF_inj. vm_compute. reflexivity.
  - intros j Hj. assert (j = 0)%nat by lia. subst. unfold late. cbn [si_start si_dt si_end time_at]. vm_compute. reflexivity.
Qed.

(** Full runs with the time settings of the shipped cases: a domain with wall particles
    only, so that every step completes, while the clock stands still. *)
Definition dry (ps : list partF) : Prop := forall p, In p ps -> p_type p <> Fluid.
Lemma evolves_dry ps ps' : Forall2 evolves ps ps' -> dry ps -> dry ps'.
Proof.
  intros F D p' H. apply In_nth_error in H as [i H]. destruct (Forall2_nth_r _ _ _ _ _ F H) as (p & Hp & ((_ & _ & _ & T) & _)). specialize (D p (nth_error_In _ _ Hp)). destruct T as [-> | ->]; auto. discriminate.
Qed.
Lemma evolves_numeric ps ps' : Forall2 evolves ps ps' -> dry ps -> numeric ps -> numeric ps'.
Proof.
  intros F D NU p' H G. apply In_nth_error in H as [i H]. destruct (Forall2_nth_r _ _ _ _ _ F H) as (p & Hp & ((_ & _ & _ & T) & Fx)). destruct (Fx (D p (nth_error_In _ _ Hp))) as [-> _]. apply NU; [eapply nth_error_In; eauto|]. destruct T as [T|T]; congruence.
Qed.
Lemma collision_dry s ps ps' : dry ps -> collision s ps = Ok ps' -> ps' = ps.
Proof.
  intros D H. unfold collision in H. apply foldM_inv with (P := fun u => u = ps) in H; auto. intros i u u' _ -> E. unfold collision1 in E. binds E. apply vget_nat_inv in E0.
  assert (T : is_type r Fluid = false). { apply is_type_neq, D. eapply nth_error_In; eauto. } rewrite T in E. now inv E.
Qed.
Lemma move_dry (m : @mps F64) ns ps : stepMove m = Ok (ns, ps) -> Forall2 evolves (m_ps m) ps.
Proof.
  unfold stepMove. intros E. binds E. destruct r as [ns0 ps0]. binds E. inv E. apply setNeighbors_evolves in E0. apply calViscosity_evolves in E1.
  assert (Tr : forall l1 l2 l3, Forall2 evolves l1 l2 -> Forall2 evolves l2 l3 -> Forall2 evolves l1 l3) by (intros; eapply Forall2_trans; eauto using evolves_trans).
  eapply Tr; [exact E0|]. eapply Tr; [apply calGravity_evolves|]. eapply Tr; [exact E1|]. apply moveParticle_evolves.
Qed.
Lemma collide_dry (m : @mps F64) ns0 ps0 ns ps : dry ps0 -> stepCollide m ns0 ps0 = Ok (ns, ps) -> Forall2 evolves ps0 ps.
Proof.
  unfold stepCollide. intros D E. binds E. destruct r as [ns1 ps1]. binds E. inv E. apply setNeighbors_evolves in E0. apply collision_dry in E1; [now subst|]. eapply evolves_dry; eauto.
Qed.
Lemma step_dry S (m : @mps F64) : sound m -> sized S -> radiusF (s_reMax (m_settings m)) -> proper_domainF (s_domain (m_settings m)) ->
  s_asserts (m_settings m) = false -> (forall det q, m_calc m <> Implicit det q) -> dry (m_ps m) -> numeric (m_ps m) ->
  exists m', stepForward S m = Ok m' /\ dry (m_ps m') /\ numeric (m_ps m').
Proof.
  intros SD SZ RF PD A K D NU.
  destruct (C51_binary64_lemma S m SD SZ RF PD) as [[[m' E]|[[Dg _]|[[det [q Kq]] _]]]|(ns & ps & W & Bad)].
  - exists m'. split; auto. unfold stepForward in E. binds E. destruct r as [ns1 ps1]. binds E. destruct r as [ns2 ps2]. binds E. destruct r as [ns3 ps3]. binds E. destruct (calCourant _ _) as [c err]. inv E. simpl.
    assert (Tr : forall l1 l2 l3, Forall2 evolves l1 l2 -> Forall2 evolves l2 l3 -> Forall2 evolves l1 l3) by (intros; eapply Forall2_trans; eauto using evolves_trans).
    apply move_dry in E0. assert (D1 := evolves_dry _ _ E0 D). apply collide_dry in E1; auto.
    assert (EV : Forall2 evolves (m_ps m) r).
    { eapply Tr; [exact E0|]. eapply Tr; [exact E1|]. clear - E2 E3 Tr.
      unfold stepPressure in E2. binds E2. destruct r0 as [ns0 ps0]. binds E2. binds E2. destruct r1 as [ps5 x]. binds E2. inv E2.
      apply setNeighbors_evolves in E. apply calNumberDensity_evolves in E0. apply calc_evolves in E1. apply assignPressure_evolves in E4.
      eapply Tr; [exact E|]. eapply Tr; [exact E0|]. eapply Tr; [exact E1|]. eapply Tr; [exact E4|].
      clear - E3 Tr. unfold stepCorrect in E3. binds E3. binds E3. apply minp_evolves in E. apply calPressureGradient_evolves in E0.
      eapply Tr; [exact E|]. eapply Tr; [exact E0|]. eapply Tr; [apply (correct_evolves (m_settings m))|].
      destruct (m_calc m); [inv E3; apply Forall2_same, evolves_refl|]. binds E3. now apply assignPressure_evolves in E3. }
    split; [eapply evolves_dry; eauto|eapply evolves_numeric; eauto].
  - exfalso. unfold dbg_of in Dg. rewrite A in Dg. simpl in Dg. destruct (m_calc m) as [det q|] eqn:Kq; [|discriminate]. exact (K _ _ eq_refl).
  - exfalso. exact (K _ _ Kq).
  - exfalso. apply Bad. destruct W as [[-> ->]|[W|(ns0 & ps0 & W0 & W)]]; auto.
    + apply move_dry in W. eapply evolves_numeric; eauto.
    + apply move_dry in W0. assert (D0 := evolves_dry _ _ W0 D). assert (N0 := evolves_numeric _ _ W0 D NU). apply collide_dry in W; auto. eapply evolves_numeric; eauto.
Qed.
Lemma steps_dry S n (m m' : @mps F64) : steps S n m m' -> sound m -> sized S -> radiusF (s_reMax (m_settings m)) -> proper_domainF (s_domain (m_settings m)) ->
  s_asserts (m_settings m) = false -> (forall det q, m_calc m <> Implicit det q) -> dry (m_ps m) -> numeric (m_ps m) ->
  dry (m_ps m') /\ numeric (m_ps m').
Proof.
  intros H SD SZ RF PD A K D NU. induction H as [|n m m1 m2 H IH E]; auto. destruct IH as [D1 N1]; auto.
  destruct (steps_static _ _ _ _ H) as (ES & _ & EK & _).
  destruct (step_dry S m1) as (m' & E' & D' & N'); auto; try (rewrite ES; auto); try (rewrite EK; auto); [eapply steps_sound; eauto|].
  rewrite E in E'. now inv E'.
Qed.

Definition tickF (k : nat) : Z * Z := (0, 0).
(** the remaining-time estimate after step [k] fits in 63 bits *)
Definition estimateF (st : @sim F64) (k : Z) : bool :=
  match @to_int64 F64 (@nmul F64 (@ndiv F64 (@nmul F64 (@ndiv F64 (@nofZ F64 0) (@nmul F64 (@nofZ F64 k) (@nofZ F64 1000000000)))
     (@nsub F64 (si_end st) (si_start st))) (si_dt st)) (@nofZ F64 1000000000)) with Ok z => Z.abs z <=? 2 ^ 62 | _ => false end.
Fixpoint estimatesF (st : @sim F64) (n : nat) (k : Z) : bool :=
  match n with O => true | Datatypes.S n' => estimateF st k && estimatesF st n' (k + 1) end.
Lemma estimatesF_all st n : forall k, estimatesF st n k = true -> forall j, k <= j < k + Z.of_nat n -> estimateF st j = true.
Proof.
  induction n as [|n IH]; intros k H j Hj; [lia|]. cbn [estimatesF] in H. apply andb_prop in H. destruct H as [H1 H2].
  destruct (Z.eq_dec j k) as [->|]; auto. apply (IH (k + 1)); auto. lia.
Qed.
Lemma dry_run S (st : @sim F64) n : fresh st -> Z.of_nat n < 1000000 -> @nlt F64 (@time_at F64 (si_start st) (si_dt st) n) (si_end st) = false ->
  sound (si_mps st) -> sized S -> radiusF (s_reMax (m_settings (si_mps st))) -> proper_domainF (s_domain (m_settings (si_mps st))) ->
  s_asserts (m_settings (si_mps st)) = false -> (forall det q, m_calc (si_mps st) <> Implicit det q) -> dry (m_ps (si_mps st)) -> numeric (m_ps (si_mps st)) ->
  estimatesF st n 1 = true ->
  exists st', run S 0 tickF n st = Ok st'.
Proof.
  intros F Hn Hend SD SZ RF PD A K D NU ES. destruct (run_ends S 0 tickF st n F Hend) as (o & Ho & [[st' ->]|[Br No]]); [eauto|].
  exfalso. destruct Br as [E|(k & st1 & R & L & E)].
  - unfold save in E. destruct F as (_ & _ & F3 & _). rewrite F3 in E. simpl in E. symmetry in E. exact (No _ E).
  - destruct (reached_inv _ _ _ _ _ _ F R) as ((C1 & C2 & C3 & C4) & T & Kk & M & Ff).
    assert (Lk : (k < n)%nat).
    { destruct (Nat.lt_ge_cases k n) as [|G]; auto. exfalso. destruct (Nat.eq_dec k n) as [->|]; [rewrite T, C2 in L; congruence|].
      destruct (reached_le _ _ _ _ _ _ R n ltac:(lia)) as (st2 & R2 & L2). destruct (reached_inv _ _ _ _ _ _ F R2) as ((_ & C2' & _) & Tj & _). rewrite Tj, C2' in L2. congruence. }
    assert (Lf : (List.length (si_out st1) <= Datatypes.S k)%nat).
    { clear - F R. induction R as [st1 E|k st1 st2 R IH L E].
      - apply save_inv in E. subst. destruct F as (_ & _ & _ & ->). simpl. lia.
      - apply iteration_inv in E as (m & s1 & _ & -> & E). destruct (saveCondition _).
        + apply save_inv in E. subst. cbn [si_out]. rewrite app_length. simpl. lia.
        + subst. cbn [si_out]. lia. }
    destruct (steps_static _ _ _ _ M) as (ESt & _ & EK & _). destruct (steps_dry _ _ _ _ M SD SZ RF PD A K D NU) as [D1 N1].
    destruct (step_dry S (si_mps st1)) as (m2 & E2 & _); auto; try (rewrite ESt; auto); try (rewrite EK; auto); [eapply steps_sound; eauto|].
    unfold iteration in E. rewrite E2 in E. cbn [bind] in E. rewrite Kk, cint_ok in E by (apply in_int_spec; unfold int_min, int_max in *; lia). cbn [bind] in E.
    assert (I64 : forall z, (- 2 ^ 62 <= z <= 2 ^ 62)%Z -> cint64 z = Ok z). { intros z Hz. unfold cint64, in_int64, int64_min, int64_max. destruct (Z.leb_spec (-9223372036854775808) z); [|lia]. destruct (Z.leb_spec z 9223372036854775807); [reflexivity|lia]. }
    assert (I64' : forall z, (- 2 ^ 63 <= z <= 2 ^ 63 - 1)%Z -> cint64 z = Ok z). { intros z Hz. unfold cint64, in_int64, int64_min, int64_max. destruct (Z.leb_spec (-9223372036854775808) z); [|lia]. destruct (Z.leb_spec z 9223372036854775807); [reflexivity|lia]. }
    pose proof (estimatesF_all _ _ _ ES (Z.of_nat k + 1) ltac:(lia)) as Ek. unfold estimateF in Ek.
    unfold tickF, timeStepReport in E. rewrite !Z.sub_0_r in E. rewrite (I64 0) in E by lia. cbn [bind si_step si_end si_start si_dt] in E.
    destruct (Z.eqb_spec (Z.of_nat k + 1) 0); [lia|]. rewrite C1, C2, C3 in E. cbn [nadd nsub nmul ndiv nofZ F64] in *.
    destruct (to_int64 _) as [z| | | | |] eqn:Tz in Ek; try discriminate Ek. apply Z.leb_le in Ek.
    rewrite Tz in E. cbn [bind] in E. rewrite !Z.sub_0_r in E. rewrite I64' in E by lia. cbn [bind] in E. rewrite ?(I64 0) in E by lia. cbn [bind] in E.
    match type of E with (if ?c then _ else _) = _ => destruct c end.
    + unfold save in E. cbn [si_file] in E. rewrite Ff, cint_ok in E. { cbn [bind] in E. symmetry in E. exact (No _ E). }
      apply in_int_spec. unfold int_min, int_max in *. lia.
    + symmetry in E. exact (No _ E).
Qed.

Definition settingsD : @settings F64 :=
  @mkS F64 false 2 fl0 (bits 0x3f50624dd2f1a9fc) c20 (bits 0x3fa47ae147ae147b) (bits 0x3fd3333333333333) dam
    (bits 0x3eb0c6f7a0b5ed8d) (bits 0x408f400000000000) true (@mkV F64 c00 (bits 0xc02399999999999a) c00) (bits 0x402399999999999a) c00
    (bits 0x3fef0a3d70a3d70a) true (bits 0x3ff0000000000000) "Explicit"%string (bits 0x3dfeec7bd512b572) (bits 0x3fc999999999999a)
    (bits 0x403119999999999a) (bits 0x3f8999999999999a) (bits 0x3fc999999999999a)
    re31 (bits 0x3faae147ae147ae2) re31 re31 "input.prof"%string true.
Definition posts : list partF := [ pf 0 Wall c00 c00; pf 1 Wall fl0 c00; pf 2 DummyWall c00 fl0 ].
Definition machineD : outcome (@mps F64) := factoryCreate fid fid c20 settingsD posts.
Definition dambreak_sim (m : @mps F64) : @sim F64 := @mkSim F64 m (bits 0) (bits 0) (bits 0x4000000000000000) (bits 0x3f50624dd2f1a9fc) (bits 0x3fa47ae147ae147b) 0 0 [].
Definition hydrostatic_sim (m : @mps F64) : @sim F64 := @mkSim F64 m (bits 0) (bits 0) (bits 0x4024000000000000) (bits 0x3f60624dd2f1a9fc) (bits 0x3fb999999999999a) 0 0 [].
Lemma machineD_ready : exists m, machineD = Ok m /\ sound m /\ m_settings m = settingsD /\ (forall det q, m_calc m <> Implicit det q) /\ dry (m_ps m) /\ numeric (m_ps m).
Proof.
  assert (B : match machineD with Ok m => match m_calc m with Implicit _ _ => false | _ => true end | _ => false end = true) by (vm_compute; reflexivity).
  destruct machineD as [m| | | | |] eqn:E; try discriminate B. exists m.
  destruct (factory_sound _ _ _ _ _ _ E) as (SD & EP & ES).
  - intros [|[|[|[|i]]]] p H; simpl in H; inv H; reflexivity.
  - intros p H. simpl in H. intuition (subst; reflexivity).
  - split; [auto|]. split; [auto|]. split; [auto|]. split; [intros det q K; rewrite K in B; discriminate B|]. rewrite EP. split.
    + intros p H. simpl in H. intuition (subst; discriminate).
    + intros p H _. simpl in H. intuition (subst; repeat split; vm_compute; reflexivity).
Qed.
Lemma dambreak_time m : @nlt F64 (@time_at F64 (si_start (dambreak_sim m)) (si_dt (dambreak_sim m)) (Z.to_nat 2001)) (si_end (dambreak_sim m)) = false.
Proof. vm_compute. reflexivity. Qed.
Lemma dambreak_estimates m : estimatesF (dambreak_sim m) (Z.to_nat 2001) 1 = true.
Proof. vm_compute. reflexivity. Qed.
Lemma hydrostatic_time m : @nlt F64 (@time_at F64 (si_start (hydrostatic_sim m)) (si_dt (hydrostatic_sim m)) (Z.to_nat 5000)) (si_end (hydrostatic_sim m)) = false.
Proof. vm_compute. reflexivity. Qed.
Lemma hydrostatic_estimates m : estimatesF (hydrostatic_sim m) (Z.to_nat 5000) 1 = true.
Proof. vm_compute. reflexivity. Qed.
Lemma dambreak_runs : exists m st', machineD = Ok m /\ run solver0 0 tickF (Z.to_nat 2001) (dambreak_sim m) = Ok st'.
Proof.
  destruct machineD_ready as (m & E & SD & ES & K & D & NU). exists m.
  assert (Fr : fresh (dambreak_sim m)) by repeat split.
  assert (RF : radiusF (s_reMax (m_settings m))) by (rewrite ES; exact re31_radius).
  assert (PD : proper_domainF (s_domain (m_settings m))) by (rewrite ES; exact dam_proper).
  assert (A : s_asserts (m_settings m) = false) by (rewrite ES; reflexivity).
  assert (Hn : Z.of_nat (Z.to_nat 2001) < 1000000) by (rewrite Z2Nat.id by lia; reflexivity).
  destruct (dry_run solver0 (dambreak_sim m) (Z.to_nat 2001) Fr Hn (dambreak_time m) SD solver0_sized RF PD A K D NU (dambreak_estimates m)) as [st' R].
  exists st'. split; [exact E|exact R].
Qed.
Lemma hydrostatic_runs : exists m st', machineD = Ok m /\ run solver0 0 tickF (Z.to_nat 5000) (hydrostatic_sim m) = Ok st'.
Proof.
  destruct machineD_ready as (m & E & SD & ES & K & D & NU). exists m.
  assert (Fr : fresh (hydrostatic_sim m)) by repeat split.
  assert (RF : radiusF (s_reMax (m_settings m))) by (rewrite ES; exact re31_radius).
  assert (PD : proper_domainF (s_domain (m_settings m))) by (rewrite ES; exact dam_proper).
  assert (A : s_asserts (m_settings m) = false) by (rewrite ES; reflexivity).
  assert (Hn : Z.of_nat (Z.to_nat 5000) < 1000000) by (rewrite Z2Nat.id by lia; reflexivity).
  destruct (dry_run solver0 (hydrostatic_sim m) (Z.to_nat 5000) Fr Hn (hydrostatic_time m) SD solver0_sized RF PD A K D NU (hydrostatic_estimates m)) as [st' R].
  exists st'. split; [exact E|exact R].
Qed.
End Binary64.
