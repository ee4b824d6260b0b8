(** * Cases for C83: two pairs of Wall particles, implicit pressures *)
From Coq Require Import Reals Lra Psatz PeanoNat.
From Flocq Require Import Core.
From Verif Require Import StageCases SolverCases WholeCases BodyCases StepFacts SpecSym.
From Verif Require Export ApartRunR.
Open Scope R_scope.
#[local] Remove Hints F64 : typeclass_instances.

Definition wallR (id : Z) (x : R) : partR := @newParticle Rnum id Wall (@mkV Rnum x 5 0) zeroR 1000 0.
Definition walls4 : list partR := [ wallR 0 7; wallR 1 2; wallR 2 8; wallR 3 3 ].
Definition walls2 : list partR := [ wallR 0 2; wallR 1 3 ].
Definition odd_one (i : nat) : nat := (2 * i + 1)%nat.
Lemma walls4_indexed : indexed walls4.
Proof. intros [|[|[|[|[|i]]]]] p H; simpl in H; inv H; reflexivity. Qed.
Lemma walls2_indexed : indexed walls2.
Proof. intros [|[|[|i]]] p H; simpl in H; inv H; reflexivity. Qed.
Lemma walls4_rest : at_rest walls4.
Proof. intros p H. simpl in H. intuition (subst; reflexivity). Qed.
Lemma walls2_rest : at_rest walls2.
Proof. intros p H. simpl in H. intuition (subst; reflexivity). Qed.
Lemma walls4_dens : forall p, In p walls4 -> 0 < p_dens p.
Proof. intros p H. simpl in H. intuition (subst; simpl; lra). Qed.
Lemma walls2_dens : forall p, In p walls2 -> 0 < p_dens p.
Proof. intros p H. simpl in H. intuition (subst; simpl; lra). Qed.
Lemma walls_group : @group Rnum odd_one walls4 walls2.
Proof.
  split; [unfold odd_one; lia|]. intros [|[|[|i]]] p H; simpl in H; inv H; eexists; (split; [reflexivity|]); cbn; auto.
Qed.

(** nobody is Fluid, so nobody moves *)
Definition dryR (ps : list partR) : Prop := forall p, In p ps -> p_type p <> Fluid.
Definition stands (ps0 ps : list partR) : Prop := Forall2 evolves ps0 ps.
Lemma stands_trans a b c : stands a b -> stands b c -> stands a c.
Proof. intros; eapply Forall2_trans; eauto using evolves_trans. Qed.
Lemma stands_dry a b : stands a b -> dryR a -> dryR b.
Proof.
  intros F D p' H. apply In_nth_error in H as [i H]. destruct (Forall2_nth_r _ _ _ _ _ F H) as (p & Hp & ((_ & _ & _ & T) & _)). specialize (D p (nth_error_In _ _ Hp)). destruct T as [-> | ->]; auto. discriminate.
Qed.
Lemma stands_pos a b i q : dryR a -> stands a b -> nth_error b i = Some q -> exists p, nth_error a i = Some p /\ p_pos q = p_pos p /\ p_dens q = p_dens p /\ (p_type q = p_type p \/ p_type q = Ghost).
Proof.
  intros D F H. destruct (Forall2_nth_r _ _ _ _ _ F H) as (p & Hp & ((_ & DD & _ & T) & Fx)). destruct (Fx (D p (nth_error_In _ _ Hp))) as (X & _). exists p. split; [exact Hp|]. split; [exact X|]. split; [exact DD|exact T].
Qed.
Lemma move_stands (m : @mps Rnum) ns ps : stepMove m = Ok (ns, ps) -> stands (m_ps m) ps.
Proof.
  unfold stepMove. intros E. binds E. destruct r as [ns0 ps0]. binds E. inv E. apply setNeighbors_evolves in E0. apply calViscosity_evolves in E1.
  eapply stands_trans; [exact E0|]. eapply stands_trans; [apply calGravity_evolves|]. eapply stands_trans; [exact E1|]. apply moveParticle_evolves.
Qed.
Lemma collision_stands s (ps ps' : list partR) : dryR ps -> collision s ps = Ok ps' -> ps' = ps.
Proof.
  intros D H. unfold collision in H. apply foldM_inv with (P := fun u => u = ps) in H; auto. intros i u u' _ -> E. unfold collision1 in E. binds E. apply vget_nat_inv in E0.
  assert (T : is_type r Fluid = false). { apply is_type_neq, D. eapply nth_error_In; eauto. } rewrite T in E. now inv E.
Qed.
Lemma collide_stands (m : @mps Rnum) ns0 ps0 ns ps : dryR ps0 -> stepCollide m ns0 ps0 = Ok (ns, ps) -> stands ps0 ps.
Proof.
  unfold stepCollide. intros D E. binds E. destruct r as [ns1 ps1]. binds E. inv E. apply setNeighbors_evolves in E0. apply collision_stands in E1; [now subst|]. eapply stands_dry; eauto.
Qed.
Lemma step_stands (S : @solver Rnum) m m' : dryR (m_ps m) -> stepForward S m = Ok m' -> stands (m_ps m) (m_ps m').
Proof.
  intros D E. unfold stepForward in E. binds E. destruct r as [ns1 ps1]. binds E. destruct r as [ns2 ps2]. binds E. destruct r as [ns3 ps3]. binds E. destruct (calCourant _ _) as [c err]. inv E. simpl.
  apply move_stands in E0. assert (D1 := stands_dry _ _ E0 D). apply collide_stands in E1; auto. eapply stands_trans; [exact E0|]. eapply stands_trans; [exact E1|]. clear - E2 E3.
  unfold stepPressure in E2. binds E2. destruct r0 as [ns0 ps0]. binds E2. binds E2. destruct r1 as [ps5 x]. binds E2. inv E2.
  apply setNeighbors_evolves in E. apply calNumberDensity_evolves in E0. apply calc_evolves in E1. apply assignPressure_evolves in E4.
  eapply stands_trans; [exact E|]. eapply stands_trans; [exact E0|]. eapply stands_trans; [exact E1|]. eapply stands_trans; [exact E4|].
  clear - E3. unfold stepCorrect in E3. binds E3. binds E3. apply minp_evolves in E. apply calPressureGradient_evolves in E0.
  eapply stands_trans; [exact E|]. eapply stands_trans; [exact E0|]. eapply stands_trans; [apply (correct_evolves (m_settings m))|].
  destruct (m_calc m); [inv E3; apply Forall2_same, evolves_refl|]. binds E3. now apply assignPressure_evolves in E3.
Qed.
Lemma stands_apart a b : dryR a -> stands a b -> apart a -> apart b.
Proof.
  intros D F A i j p q P Q N TP TQ. destruct (stands_pos _ _ _ _ D F P) as (p0 & P0 & X0 & _ & T0). destruct (stands_pos _ _ _ _ D F Q) as (q0 & Q0 & X1 & _ & T1). rewrite X0, X1. destruct T0, T1; try contradiction. apply (A i j); congruence.
Qed.
Lemma stands_reach re d e n a b : dryR a -> stands a b -> (forall i j p q, (i < n)%nat -> stranger e n j -> nth_error a (e i) = Some p -> nth_error a j = Some q -> re <= euclid (p_pos p) (p_pos q)) ->
  @out_of_reach Rnum re d e n b.
Proof.
  intros D F A i j p q I ST P Q _ _. destruct (stands_pos _ _ _ _ D F P) as (p0 & P0 & X0 & _ & T0). destruct (stands_pos _ _ _ _ D F Q) as (q0 & Q0 & X1 & _ & T1).
  rewrite !dist_R. assert (R := A i j p0 q0 I ST P0 Q0). rewrite X0, X1. split; apply nlt_R_false; [exact R|]. rewrite euclid_sym. exact R.
Qed.
Lemma walls4_dry : dryR walls4.
Proof. intros p H. simpl in H. intuition (subst; discriminate). Qed.
Lemma walls2_dry : dryR walls2.
Proof. intros p H. simpl in H. intuition (subst; discriminate). Qed.
Lemma walls4_apart : apart walls4.
Proof.
  intros [|[|[|[|[|i]]]]] [|[|[|[|[|j]]]]] p q Hp Hq N _ _; simpl in Hp, Hq; try congruence; inv Hp; inv Hq; intros X; apply (f_equal vx) in X; simpl in X; lra.
Qed.
Lemma walls2_apart : apart walls2.
Proof.
  intros [|[|[|i]]] [|[|[|j]]] p q Hp Hq N _ _; simpl in Hp, Hq; try congruence; inv Hp; inv Hq; intros X; apply (f_equal vx) in X; simpl in X; lra.
Qed.
Lemma walls_far : forall i j p q, (i < 2)%nat -> stranger odd_one 2 j -> nth_error walls4 (odd_one i) = Some p -> nth_error walls4 j = Some q -> 3/2 <= euclid (p_pos p) (p_pos q).
Proof.
  intros i j p q I ST P Q. assert (S0 := ST 0%nat ltac:(lia)). assert (S1 := ST 1%nat ltac:(lia)). unfold odd_one in *. eapply Rle_trans; [|apply (proj1 (euclid_axis _ _))].
  destruct i as [|[|i]]; [| |lia]; (destruct j as [|[|[|[|[|j]]]]]; try (exfalso; lia); cbn in P, Q; try discriminate; inv P; inv Q; cbn; unfold Rabs; destruct (Rcase_abs _); lra).
Qed.
Lemma stands_spread (m : @mps Rnum) : dryR (m_ps m) -> apart (m_ps m) -> spread m.
Proof.
  intros D A n1 b n2 c n3 c1 H1 H2 H3. assert (E1 := move_stands _ _ _ H1). assert (D1 := stands_dry _ _ E1 D). assert (E2 := collide_stands _ _ _ _ _ D1 H2). assert (E3 := setNeighbors_evolves _ _ _ _ H3).
  eapply stands_apart; [exact D| |exact A]. eapply stands_trans; [exact E1|]. eapply stands_trans; [exact E2|exact E3].
Qed.
Lemma stands_run (S : @solver Rnum) n m m' : dryR (m_ps m) -> steps S n m m' -> stands (m_ps m) (m_ps m').
Proof.
  intros D H. induction H as [m|n m m1 m2 H IH HS]; [apply Forall2_same, evolves_refl|]. specialize (IH D). eapply stands_trans; [exact IH|]. eapply step_stands; [eapply stands_dry; eauto|exact HS].
Qed.
Lemma walls_complete n ps : indexed ps -> at_rest ps -> dryR ps -> apart ps -> (forall p, In p ps -> 0 < p_dens p) ->
  exists m m', newMPS set1 ps grav (Implicit det_none ppe2) = Ok m /\ ready m /\ m_settings m = set1 /\ m_ps m = ps /\ m_calc m = Implicit det_none ppe2 /\ steps gauss n m m'.
Proof.
  intros I AR D A DN. destruct (newMPS_total set1 ps grav (Implicit det_none ppe2) set1_usable set1_fits) as (m & E). assert (RD : ready m) by (eapply newMPS_ready; eauto using set1_usable). exists m.
  assert (F : m_settings m = set1 /\ m_ps m = ps /\ m_calc m = Implicit det_none ppe2) by (unfold newMPS in E; binds E; binds E; binds E; binds E; inv E; auto). destruct F as (ES & EP & EK).
  assert (K : exists m', steps gauss n m m' /\ ready m'). 2: { destruct K as (m' & K & _). exists m'. auto 8. }
  induction n as [|n (m1 & H & R1)]; [exists m; split; [constructor|exact RD]|]. destruct (BodyRun.steps_static _ _ _ _ H) as (E1 & _ & E2). assert (ST : stands (m_ps m) (m_ps m1)) by (apply (stands_run gauss n); [rewrite EP; exact D|exact H]).
  assert (D0 : dryR (m_ps m)) by (rewrite EP; exact D). assert (D1 := stands_dry _ _ ST D0).
  destruct (C51_implicit_lemma m1 det_none ppe2 R1) as [m2 X].
  - congruence.
  - rewrite E2, E1, EK, ES. simpl. repeat split; lra.
  - simpl. lra.
  - simpl. lia.
  - rewrite E1. now rewrite ES.
  - reflexivity.
  - intros p Hp. apply In_nth_error in Hp. destruct Hp as (i & Hp). destruct (stands_pos _ _ _ _ D0 ST Hp) as (p0 & P0 & _ & DD & _). rewrite DD. apply DN. rewrite <- EP. eapply nth_error_In; eauto.
  - apply stands_spread; [exact D1|]. eapply stands_apart; [exact D0|exact ST|rewrite EP; exact A].
  - exists m2. split; [econstructor; eauto|eapply step_ready; eauto].
Qed.
Lemma walls_stay (S : @solver Rnum) j (m mj : @mps Rnum) : m_settings m = set1 -> m_ps m = walls4 -> steps S j m mj -> never_reached odd_one 2 mj /\ spread mj.
Proof.
  intros SM PM H. assert (D : dryR (m_ps m)) by (rewrite PM; exact walls4_dry). assert (ST := stands_run _ _ _ _ D H). assert (DJ := stands_dry _ _ ST D). destruct (BodyRun.steps_static _ _ _ _ H) as (E1 & _).
  assert (FAR : forall b, stands (m_ps m) b -> @out_of_reach Rnum (s_reMax (m_settings mj)) (s_domain (m_settings mj)) odd_one 2 b).
  { intros b SB. apply (stands_reach _ _ _ _ _ _ D SB). rewrite E1, SM, PM. exact walls_far. }
  split.
  - split; [apply FAR; exact ST|]. split.
    + intros n1 b H1. apply FAR. eapply stands_trans; [exact ST|eapply move_stands; eauto].
    + intros n1 b n2 c H1 H2. apply FAR. eapply stands_trans; [exact ST|]. assert (X := move_stands _ _ _ H1). eapply stands_trans; [exact X|]. eapply collide_stands; [eapply stands_dry; eauto|exact H2].
  - apply stands_spread; [exact DJ|]. eapply stands_apart; [exact D|exact ST|rewrite PM; exact walls4_apart].
Qed.
Lemma walls_case n : exists m r m' r', m_ps m = walls4 /\ m_ps r = walls2 /\ ready m /\ ready r /\ exact_solver gauss /\ sensible (m_calc m) (s_reMax (m_settings m)) /\ positive_compress (m_calc m) /\
  (exists det q, m_calc m = Implicit det q) /\ (forall p, In p (m_ps m) -> 0 < p_dens p) /\ same_setup m r /\ group odd_one (m_ps m) (m_ps r) /\
  (forall j mj, (j < n)%nat -> steps gauss j m mj -> never_reached odd_one (List.length (m_ps r)) mj /\ spread mj) /\ steps gauss n m m' /\ steps gauss n r r'.
Proof.
  destruct (walls_complete n walls4 walls4_indexed walls4_rest walls4_dry walls4_apart walls4_dens) as (m & m' & EM & RM & SM & PM & KM & HM).
  destruct (walls_complete n walls2 walls2_indexed walls2_rest walls2_dry walls2_apart walls2_dens) as (r & r' & ER & RR & SR & PR & KR & HR).
  exists m, r, m', r'. split; [exact PM|]. split; [exact PR|]. split; [exact RM|]. split; [exact RR|]. split; [exact gauss_exact|]. split; [rewrite KM, SM; simpl; repeat split; lra|]. split; [rewrite KM; simpl; split; [lra|lia]|]. split; [eauto|].
  split; [rewrite PM; exact walls4_dens|]. split.
  { unfold newMPS in EM, ER. binds EM. binds EM. binds EM. binds EM. inv EM. binds ER. binds ER. binds ER. binds ER. inv ER. unfold same_setup. cbn in *. repeat split; congruence. }
  split; [rewrite PM, PR; exact walls_group|]. split; [|split; assumption].
  intros j mj _ H. rewrite PR. exact (walls_stay _ _ _ _ SM PM H).
Qed.
Lemma walls_explicit n : exists m r m' n0 c, m_ps m = walls4 /\ m_ps r = walls2 /\ ready m /\ sound r /\ same_setup m r /\ group odd_one (m_ps m) (m_ps r) /\ m_calc m = Explicit n0 c /\
  (forall j mj, (j < n)%nat -> steps no_solver j m mj -> never_reached odd_one (List.length (m_ps r)) mj) /\ steps no_solver n m m'.
Proof.
  destruct (newMPS_total set1 walls4 grav kex set1_usable set1_fits) as (m & EM). assert (RM : ready m) by (eapply newMPS_ready; eauto using set1_usable, walls4_indexed, walls4_rest).
  destruct (newMPS_total set1 walls2 grav kex set1_usable set1_fits) as (r & ER). assert (RR : ready r) by (eapply newMPS_ready; eauto using set1_usable, walls2_indexed, walls2_rest).
  assert (F : m_settings m = set1 /\ m_ps m = walls4 /\ m_calc m = kex) by (unfold newMPS in EM; binds EM; binds EM; binds EM; binds EM; inv EM; auto). destruct F as (SM & PM & KM).
  assert (PR : m_ps r = walls2) by (unfold newMPS in ER; binds ER; binds ER; binds ER; binds ER; inv ER; auto).
  destruct (C51_run_lemma no_solver n m RM no_solver_sized) as [m' H]; [now rewrite SM|intros det q K; rewrite KM in K; discriminate|].
  exists m, r, m', 4, 10. split; [exact PM|]. split; [exact PR|]. split; [exact RM|]. split; [apply RR|]. split.
  { unfold newMPS in EM, ER. binds EM. binds EM. binds EM. binds EM. inv EM. binds ER. binds ER. binds ER. binds ER. inv ER. unfold same_setup. cbn in *. repeat split; congruence. }
  split; [rewrite PM, PR; exact walls_group|]. split; [exact KM|]. split; [|exact H]. intros j mj _ K. rewrite PR. exact (proj1 (walls_stay _ _ _ _ SM PM K)).
Qed.
