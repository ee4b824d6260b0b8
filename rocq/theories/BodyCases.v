(** * Concrete bodies (C78): two fluid particles side by side, a Wall at a distance; two fluid
    particles beside a Wall and a DummyWall *)
From Coq Require Import Reals Lra PeanoNat.
From Verif Require Import TotalR StageCases WholeCases WholeR NeighborR WeightR GaussR SolverCases BodyR BodyRun SpecBody.
Open Scope R_scope.
#[local] Remove Hints F64 : typeclass_instances.

Definition set78 (asserts : bool) : @settings Rnum :=
  @mkS Rnum asserts 2 1 (1/100) 1 (1/10) (1/2) box10 (1/1000) 1000 true (@mkV Rnum 0 (-10) 0) 10 0 (97/100) false (85/100)
       "Explicit"%string (1/2) (1/5) 10 (1/2) (1/5) (3/2) (3/2) (3/2) (3/2) "input.csv"%string false.
Lemma set78_usable b : usable (set78 b).
Proof. unfold usable, proper_domain. simpl. split; [lra|]. split; [left; reflexivity|]. lra. Qed.
Lemma machine78 ps g k : indexed ps -> at_rest ps -> exists m, ready m /\ m_settings m = set78 false /\ m_ps m = ps /\ m_gravity m = g /\ m_calc m = k.
Proof.
  intros I A. destruct (newMPS_total (set78 false) ps g k (set78_usable false) set1_fits) as [m E]. exists m.
  split; [eapply newMPS_ready; eauto using set78_usable|]. unfold newMPS in E. binds E. binds E. binds E. binds E. inv E. auto.
Qed.
Lemma ref78 : exists rv, @newRefValues Rnum false 2 1 (3/2) = Ok rv /\ 0 < rv_n0 rv.
Proof. destruct (C09_lemma false 2 1 (3/2) ltac:(left; reflexivity) ltac:(lra) ltac:(lra)) as (rv & E & P & _). exists rv. split; [exact E|exact P]. Qed.

(** the pair flies to the right, the Wall stands four units away *)
Definition flock : list partR := [ at3 0 Fluid 3 5 2 []; at3 1 Fluid 4 5 2 []; at3 2 Wall 8 5 0 [] ].
Lemma flock_indexed : indexed flock.
Proof. intros [|[|[|[|i]]]] p H; simpl in H; inv H; reflexivity. Qed.
Lemma flock_rest : at_rest flock.
Proof. intros p [<-|[<-|[<-|[]]]]; reflexivity. Qed.
Lemma flock_apart : apart flock.
Proof.
  intros [|[|[|[|i]]]] [|[|[|[|j]]]] p q Hp Hq N _ _; simpl in Hp, Hq; try congruence; inv Hp; inv Hq; intros X; apply (f_equal vx) in X; simpl in X; lra.
Qed.
Lemma flock_dense : forall p, In p flock -> 0 < p_dens p.
Proof. intros p [<-|[<-|[<-|[]]]]; simpl; lra. Qed.
Lemma flock_vel : forall p, In p flock -> p_type p = Fluid -> p_vel p = @mkV Rnum 2 0 0.
Proof. intros p [<-|[<-|[<-|[]]]] T; [reflexivity|reflexivity|discriminate T]. Qed.
Lemma flock_clear : forall i j p q, nth_error flock i = Some p -> nth_error flock j = Some q -> i <> j -> p_type p = Fluid -> p_type q = Fluid -> 1/2 <= euclid (p_pos p) (p_pos q).
Proof.
  intros [|[|[|[|i]]]] [|[|[|[|j]]]] p q Hp Hq N Tp Tq; simpl in Hp, Hq; try congruence; inv Hp; inv Hq; try discriminate.
  - rewrite (euclid_at _ _ _ _ _ _ _ _ _ _ _ 1) by lra. lra.
  - rewrite (euclid_at _ _ _ _ _ _ _ _ _ _ _ 1) by lra. lra.
Qed.
Lemma flock_lattice : on_lattice 2 1 flock.
Proof.
  exists (@mkV Rnum 3 5 0). intros p [<-|[<-|[<-|[]]]] T; [exists (0, 0, 0)%Z|exists (1, 0, 0)%Z|discriminate T]; (split; [reflexivity|]);
    apply vec_eqR; cbn [vx vy vz lattice_at at3 set_nbrs newParticle p_pos]; change (@num Rnum) with R in *; lra.
Qed.
Lemma flock_free : forall k p, (k <= 7)%nat -> In p flock -> p_type p = Fluid -> let x := addR (p_pos p) (fallen (1/100) (@mkV Rnum 2 0 0) grav k) in
  in_box box10 x /\ forall q, In q flock -> p_type q <> Ghost -> p_type q <> Fluid -> 3/2 <= euclid x (p_pos q).
Proof.
  intros k p Hk Hp Tp. cbv zeta. assert (K1 : 0 <= INR k) by apply pos_INR. assert (K2 : INR k <= 7) by (apply le_INR in Hk; simpl in Hk; lra).
  assert (K3 : 0 <= INR k * (INR k + 1) <= 56) by nra.
  destruct Hp as [<-|[<-|[<-|[]]]]; try discriminate Tp; (split; [unfold in_box, fallen; cbn; lra|]); intros q [<-|[<-|[<-|[]]]] Gq Tq; try (exfalso; apply Tq; reflexivity).
  - eapply Rle_trans; [|apply (proj1 (euclid_axis _ _))]. unfold fallen. cbn. unfold Rabs. destruct (Rcase_abs _); lra.
  - eapply Rle_trans; [|apply (proj1 (euclid_axis _ _))]. unfold fallen. cbn. unfold Rabs. destruct (Rcase_abs _); lra.
Qed.
Lemma flock_falls : exists m m', ready m /\ m_settings m = set78 false /\ m_ps m = flock /\ m_gravity m = grav /\ m_calc m = @Explicit Rnum (rv_n0 (m_rvN m)) 10 /\
  0 < rv_n0 (m_rvN m) /\ steps no_solver 7 m m'.
Proof.
  destruct ref78 as (rv & ER & P). destruct (machine78 flock grav (@Explicit Rnum (rv_n0 rv) 10) flock_indexed flock_rest) as (m & RD & ES & EP & EG & EK).
  assert (EV : m_rvN m = rv). { destruct RD as (_ & _ & E & _). rewrite ES in E. cbn in E. assert (X : Ok (m_rvN m) = Ok rv) by (etransitivity; [symmetry; exact E|exact ER]). injection X as X. exact X. }
  destruct (C51_run_lemma no_solver 7 m RD no_solver_sized) as [m' H]; [now rewrite ES|intros det q K; rewrite EK in K; discriminate|].
  exists m, m'. rewrite EV. exact (conj RD (conj ES (conj EP (conj EG (conj EK (conj P H)))))).
Qed.

(** two fluid particles at rest beside a Wall and a DummyWall *)
Definition basin : list partR := [ at3 0 Fluid 3 5 0 []; at3 1 Fluid 4 5 0 []; at3 2 Wall 5 5 0 []; at3 3 DummyWall 6 5 0 [] ].
Lemma basin_indexed : indexed basin.
Proof. intros [|[|[|[|[|i]]]]] p H; simpl in H; inv H; reflexivity. Qed.
Lemma basin_rest : at_rest basin.
Proof. intros p [<-|[<-|[<-|[<-|[]]]]]; reflexivity. Qed.
Lemma basin_apart : apart basin.
Proof.
  intros [|[|[|[|[|i]]]]] [|[|[|[|[|j]]]]] p q Hp Hq N _ _; simpl in Hp, Hq; try congruence; inv Hp; inv Hq; intros X; apply (f_equal vx) in X; simpl in X; lra.
Qed.
Lemma basin_clear : forall i j p q, nth_error basin i = Some p -> nth_error basin j = Some q -> i <> j -> 1 <= euclid (p_pos p) (p_pos q).
Proof.
  intros i j p q Hp Hq N. eapply Rle_trans; [|apply (proj1 (euclid_axis _ _))].
  destruct i as [|[|[|[|[|i]]]]]; destruct j as [|[|[|[|[|j]]]]]; simpl in Hp, Hq; try congruence; inv Hp; inv Hq; cbn; unfold Rabs; destruct (Rcase_abs _); lra.
Qed.
Lemma basin_relaxed : forall i p, nth_error basin i = Some p -> relaxed (3/2) 4 basin i p.
Proof.
  intros i p Hp. unfold relaxed. unfold sum_others. apply Rle_trans with (rsum (map (fun _ : nat => 1/2) (seq 0 (List.length basin)))); [|simpl; lra].
  apply rsum_le. intros j _. destruct (nth_error basin j) as [q|] eqn:Hq; [|lra]. destruct (Nat.eqb_spec j i) as [|N]; cbn [orb]; [lra|].
  destruct (p_type q =? Ghost)%Z; [lra|]. pose proof (basin_clear i j p q Hp Hq (not_eq_sym N)) as D. unfold w_spec. destruct (Rlt_dec _ _); [|lra].
  set (d := euclid (p_pos p) (p_pos q)) in *. assert (3 / 2 / d <= 3 / 2); [|lra].
  apply Rmult_le_reg_r with d; [lra|]. replace (3 / 2 / d * d) with (3 / 2) by (field; lra). lra.
Qed.
Lemma basin_stays n : exists m m', ready m /\ m_settings m = set78 false /\ m_ps m = basin /\ m_gravity m = zeroR /\ m_calc m = kex /\ steps no_solver n m m'.
Proof.
  destruct (machine78 basin zeroR kex basin_indexed basin_rest) as (m & RD & ES & EP & EG & EK).
  destruct (C51_run_lemma no_solver n m RD no_solver_sized) as [m' H]; [now rewrite ES|intros det q K; rewrite EK in K; discriminate|].
  exists m, m'. exact (conj RD (conj ES (conj EP (conj EG (conj EK H))))).
Qed.

(** one particle, the pressure from the Poisson equation *)
Lemma solo_implicit_step : exists m m', ready m /\ m_settings m = set1 /\ m_ps m = solo /\ m_gravity m = grav /\ m_calc m = Implicit det_none ppe2 /\ steps gauss 1 m m'.
Proof.
  destruct (machine solo (Implicit det_none ppe2) solo_indexed solo_rest) as (m & _ & RD & ES & EP & EG & EK).
  destruct (C51_implicit_lemma m det_none ppe2 RD EK) as [m' H].
  - rewrite EK, ES. simpl. repeat split; lra.
  - simpl. lra.
  - simpl. lia.
  - now rewrite ES.
  - reflexivity.
  - rewrite EP. intros p [<-|[]]. simpl. lra.
  - intros n1 b n2 c n3 c1 H1 H2 H3. apply move_length in H1. apply collide_length in H2. apply search_same_id, Forall2_length in H3. rewrite EP in H1. simpl in H1.
    intros i j p q Hp Hq N. assert (i < 1)%nat by (rewrite <- H1, <- H2, H3; apply nth_error_Some; congruence).
    assert (j < 1)%nat by (rewrite <- H1, <- H2, H3; apply nth_error_Some; congruence). lia.
  - exists m, m'. split; [exact RD|]. split; [exact ES|]. split; [exact EP|]. split; [exact EG|]. split; [exact EK|]. eapply steps_S; [apply steps_0|exact H].
Qed.
