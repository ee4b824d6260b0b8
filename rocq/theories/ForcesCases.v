(** * Concrete cases for the theorems about viscosity and the balance of forces

    Two fluid particles at distance 1 with any velocities, densities and pressures. *)
From Coq Require Import Reals Lra.
From Verif Require Import CollisionR StepR ViscosityR StageCases SpecForces SpecStep.
Open Scope R_scope.
#[local] Remove Hints F64 : typeclass_instances.

Definition mate (id : Z) (x : R) (v : vecR) (rho pr : R) (other : Z) : partR :=
  set_press (set_nbrs (@newParticle Rnum id Fluid (@mkV Rnum x 5 0) v rho 0) [nb other 1]) pr.
Definition couple (v0 v1 : vecR) (r0 r1 a b : R) : list partR := [mate 0 4 v0 r0 a 1; mate 1 5 v1 r1 b 0].
(** the settings of the other cases with another viscosity *)
Definition set_visc (nu : R) : @settings Rnum :=
  @mkS Rnum false 2 1 (1/100) 1 (1/10) (1/2) box10 nu 1000 true (@mkV Rnum 0 (-10) 0) 10 0 (97/100) false (85/100)
       "Explicit"%string (1/2) (1/5) 10 (5/4) (1/5) (3/2) (3/2) (3/2) (3/2) "input.csv"%string false.
Definition rv1 : @refValues Rnum := @mkRV Rnum 4 1.

Lemma mate_dist id id' x x' v v' r r' a a' o o' : (x - x') ^ 2 = 1 -> euclid (p_pos (mate id x v r a o)) (p_pos (mate id' x' v' r' a' o')) = 1.
Proof. intros E. unfold euclid, mate. simpl p_pos. cbn [vx vy vz]. replace (_ + _ + _) with (1 ^ 2) by (rewrite E; ring). apply sqrt_pow2. lra. Qed.
Lemma couple_rest v0 v1 r0 r1 a b : at_rest (couple v0 v1 r0 r1 a b).
Proof. intros p [<-|[<-|[]]]; reflexivity. Qed.
Lemma couple_indexed v0 v1 r0 r1 a b : indexed (couple v0 v1 r0 r1 a b).
Proof. intros [|[|[|i]]] p H; simpl in H; inv H; reflexivity. Qed.
Lemma couple_apart v0 v1 r0 r1 a b : apart (couple v0 v1 r0 r1 a b).
Proof.
  intros [|[|[|i]]] [|[|[|j]]] p q Hp Hq N _ _; simpl in Hp, Hq; try congruence; inv Hp; inv Hq; intros X; apply (f_equal vx) in X; simpl in X; lra.
Qed.
Lemma couple_fluid v0 v1 r0 r1 a b : forall p, In p (couple v0 v1 r0 r1 a b) -> p_type p = Fluid.
Proof. intros p [<-|[<-|[]]]; reflexivity. Qed.
Lemma couple_walls v0 v1 r0 r1 a b : walls_rest (couple v0 v1 r0 r1 a b).
Proof. intros p H T. destruct (T (couple_fluid _ _ _ _ _ _ p H)). Qed.
Lemma couple_uniform v0 v1 r a b : uniform r (couple v0 v1 r r a b).
Proof. intros p [<-|[<-|[]]] _; reflexivity. Qed.
Lemma couple_dense v0 v1 r0 r1 a b : 0 < r0 -> 0 < r1 -> forall p, In p (couple v0 v1 r0 r1 a b) -> 0 < p_dens p.
Proof. intros H H' p [<-|[<-|[]]]; simpl; assumption. Qed.
Lemma couple_listed v0 v1 r0 r1 a b : listed (3/2) (couple v0 v1 r0 r1 a b).
Proof.
  intros [|[|[|i]]] p H _; simpl in H; try discriminate; inv H; (split; [repeat constructor; simpl; tauto|]); intros n; split.
  - intros [<-|[]]. exists 1%nat. eexists. split; [reflexivity|]. split; [discriminate|]. split; [discriminate|]. rewrite mate_dist by lra. split; [lra|reflexivity].
  - intros ([|[|[|j]]] & q & Hq & N & _ & D & ->); simpl in Hq; try discriminate; try congruence; inv Hq. rewrite mate_dist by lra. left; reflexivity.
  - intros [<-|[]]. exists 0%nat. eexists. split; [reflexivity|]. split; [discriminate|]. split; [discriminate|]. rewrite mate_dist by lra. split; [lra|reflexivity].
  - intros ([|[|[|j]]] & q & Hq & N & _ & D & ->); simpl in Hq; try discriminate; try congruence; inv Hq. rewrite mate_dist by lra. left; reflexivity.
Qed.
Lemma w_one : w_spec (3/2) 1 = 1/2.
Proof. unfold w_spec. destruct (Rlt_dec 1 (3/2)); lra. Qed.
Lemma visc_viscous nu : 0 <= nu -> viscous (set_visc nu) rv1.
Proof. intros H. unfold viscous. simpl. split; [exact H|]. split; [lra|]. split; [left; reflexivity|]. lra. Qed.

Lemma couple_others v0 v1 r0 r1 a b f : let ps := couple v0 v1 r0 r1 a b in
  sum_others ps 0 f = f 1%nat (mate 1 5 v1 r1 b 0) /\ sum_others ps 1 f = f 0%nat (mate 0 4 v0 r0 a 1).
Proof. simpl. unfold sum_others. simpl. split; ring. Qed.
Lemma couple_diffusion nu v0 v1 r0 r1 a b i p : nth_error (couple v0 v1 r0 r1 a b) i = Some p -> diffusion (set_visc nu) rv1 (couple v0 v1 r0 r1 a b) i p = nu / 200.
Proof.
  destruct (couple_others v0 v1 r0 r1 a b (fun _ q => w_spec (3/2) (euclid (p_pos p) (p_pos q)))) as [A B].
  destruct i as [|[|[|i]]]; simpl; intros H; try discriminate; inv H; unfold diffusion; change (s_reL (set_visc nu)) with (3/2); [rewrite A|rewrite B];
    rewrite mate_dist, w_one by lra; simpl; lra.
Qed.
(** what the viscosity does to the two *)
Lemma couple_visc nu v0 v1 r0 r1 a b : let ps := couple v0 v1 r0 r1 a b in let k := nu / 2 in
  @calViscosity Rnum (set_visc nu) rv1 (s_reL (set_visc nu)) ps =
    Ok [set_acc (mate 0 4 v0 r0 a 1) (scaleR k (diffR v1 v0)); set_acc (mate 1 5 v1 r1 b 0) (scaleR k (diffR v0 v1))].
Proof.
  intros ps k. destruct (calViscosity_R (set_visc nu) rv1 (3/2) ps (couple_listed _ _ _ _ _ _) (couple_apart _ _ _ _ _ _) ltac:(simpl; lra)) as (ps1 & E & L & H).
  rewrite E. f_equal. destruct (H 0%nat _ eq_refl) as (q0 & Q0 & _ & A0). destruct (H 1%nat _ eq_refl) as (q1 & Q1 & _ & A1).
  destruct ps1 as [|x [|y [|z l]]]; try discriminate L. simpl in Q0, Q1. injection Q0 as ->. injection Q1 as ->.
  rewrite (A0 eq_refl), (A1 eq_refl). clear.
  assert (SH : forall f, sumv ps 0 f = f 1%nat (mate 1 5 v1 r1 b 0) /\ sumv ps 1 f = f 0%nat (mate 0 4 v0 r0 a 1)).
  { intros f. unfold sumv, ps. split; apply vec_eq; cbn [vx vy vz]; apply couple_others. }
  unfold shear. change (s_reL (set_visc nu)) with (3/2). rewrite (proj1 (SH _)), (proj2 (SH _)). rewrite !mate_dist, w_one by lra. rewrite visc_coeff_R.
  f_equal; [|f_equal]; f_equal; apply vec_eq; simpl; unfold k; change (@num Rnum) with R in *; field.
Qed.

Lemma couple_unstable c : 1 < c -> exists (s : @settings Rnum) rv ps ps1,
  viscous s rv /\ listed (3/2) ps /\ apart ps /\ s_reL s <= 3/2 /\ at_rest ps /\ walls_rest ps /\ uniform 1000 ps /\
  (forall i p, nth_error ps i = Some p -> diffusion s rv ps i p = c) /\
  @calViscosity Rnum s rv (s_reL s) ps = Ok ps1 /\ fluid_energy ps < fluid_energy (moveParticle s ps1).
Proof.
  intros C. exists (set_visc (200 * c)), rv1, (couple (@mkV Rnum 1 0 0) (@mkV Rnum (-1) 0 0) 1000 1000 0 0). eexists.
  split; [apply visc_viscous; lra|]. split; [apply couple_listed|]. split; [apply couple_apart|]. split; [simpl; lra|]. split; [apply couple_rest|].
  split; [apply couple_walls|]. split; [apply couple_uniform|]. split; [intros i p H; rewrite (couple_diffusion _ _ _ _ _ _ _ _ _ H); field|].
  split; [apply couple_visc|]. unfold fluid_energy. simpl. unfold dotR. simpl. nra.
Qed.
Lemma couple_densities : exists (s : @settings Rnum) rv ps ps1,
  viscous s rv /\ listed (3/2) ps /\ apart ps /\ s_reL s <= 3/2 /\ at_rest ps /\ (forall p, In p ps -> p_type p = Fluid /\ 0 < p_dens p) /\
  (forall i p, nth_error ps i = Some p -> diffusion s rv ps i p <= 1/100) /\
  @calViscosity Rnum s rv (s_reL s) ps = Ok ps1 /\ 0 < power ps ps1 /\ net_force ps1 <> zeroR /\
  fluid_energy ps < fluid_energy (moveParticle s ps1) /\ momentum (moveParticle s ps1) <> momentum ps.
Proof.
  exists (set_visc 1), rv1, (couple (@mkV Rnum 1 0 0) (@mkV Rnum 2 0 0) 1000 1 0 0). eexists.
  split; [apply visc_viscous; lra|]. split; [apply couple_listed|]. split; [apply couple_apart|]. split; [simpl; lra|]. split; [apply couple_rest|].
  split; [intros p H; split; [now apply couple_fluid in H|]; revert p H; apply couple_dense; lra|].
  split; [intros i p H; rewrite (couple_diffusion _ _ _ _ _ _ _ _ _ H); lra|].
  split; [apply couple_visc|]. split; [unfold power; simpl; unfold dotR; simpl; lra|].
  split; [intros X; apply (f_equal vx) in X; simpl in X; lra|].
  split; [unfold fluid_energy; simpl; unfold dotR; simpl; lra|]. intros X; apply (f_equal vx) in X; simpl in X; lra.
Qed.
Lemma couple_torque : exists (s : @settings Rnum) rv ps ps1,
  viscous s rv /\ listed (3/2) ps /\ apart ps /\ s_reL s <= 3/2 /\ at_rest ps /\ uniform 1000 ps /\ (forall p, In p ps -> p_type p = Fluid) /\
  (forall i p, nth_error ps i = Some p -> diffusion s rv ps i p <= 1/100) /\
  @calViscosity Rnum s rv (s_reL s) ps = Ok ps1 /\ torque ps1 <> zeroR.
Proof.
  exists (set_visc 1), rv1, (couple (@mkV Rnum 0 1 0) (@mkV Rnum 0 (-1) 0) 1000 1000 0 0). eexists.
  split; [apply visc_viscous; lra|]. split; [apply couple_listed|]. split; [apply couple_apart|]. split; [simpl; lra|]. split; [apply couple_rest|].
  split; [apply couple_uniform|]. split; [apply couple_fluid|]. split; [intros i p H; rewrite (couple_diffusion _ _ _ _ _ _ _ _ _ H); lra|].
  split; [apply couple_visc|]. intros X; apply (f_equal vz) in X; simpl in X; lra.
Qed.

(** ** pressure: the particle of least pressure is not pushed, the other is *)
Lemma couple_sumv v0 v1 r0 r1 a b f : let ps := couple v0 v1 r0 r1 a b in
  sumv ps 0 f = f 1%nat (mate 1 5 v1 r1 b 0) /\ sumv ps 1 f = f 0%nat (mate 0 4 v0 r0 a 1).
Proof. intros ps. unfold sumv, ps. split; apply vec_eq; cbn [vx vy vz]; apply couple_others. Qed.
Lemma couple_pressure : exists (s : @settings Rnum) rv ps ps1 ps2,
  listed (3/2) ps /\ indexed ps /\ apart ps /\ at_rest ps /\ s_reG s <= 3/2 /\ 0 < rv_n0 rv /\ uniform 1000 ps /\
  (forall p, In p ps -> p_type p = Fluid /\ 0 <= p_press p) /\
  setMinimumPressure (s_reG s) ps = Ok ps1 /\ calPressureGradient s rv (s_reG s) ps1 = Ok ps2 /\
  momentum (moveParticleUsingPressureGradient s ps2) <> momentum ps.
Proof.
  set (ps := couple zeroR zeroR 1000 1000 1 0).
  destruct (C52_lemma (set_visc 1) rv1 (3/2) ps) as (ps1 & ps2 & E1 & E2 & [L C] & _).
  { apply couple_listed. } { apply couple_indexed. } { apply couple_apart. } { apply couple_rest. } { simpl; lra. } { left; reflexivity. } { simpl; lra. }
  { apply couple_dense; lra. }
  exists (set_visc 1), rv1, ps, ps1, ps2. split; [apply couple_listed|]. split; [apply couple_indexed|]. split; [apply couple_apart|]. split; [apply couple_rest|].
  split; [simpl; lra|]. split; [simpl; lra|]. split; [apply couple_uniform|]. split; [intros p [<-|[<-|[]]]; (split; [reflexivity|simpl; lra])|].
  split; [exact E1|]. split; [exact E2|].
  destruct (C 0%nat _ eq_refl) as (q0 & Q0 & _ & D0 & _ & _ & _ & F0). destruct (C 1%nat _ eq_refl) as (q1 & Q1 & _ & D1 & _ & _ & _ & F1).
  destruct (F0 eq_refl) as (m0 & (A0 & B0 & O0) & V0 & _). destruct (F1 eq_refl) as (m1 & (A1 & B1 & O1) & V1 & _). clear F0 F1 C.
  assert (M0 : m0 <= 0).
  { apply (B0 1%nat (mate 1 5 zeroR 1000 0 0)). split; [reflexivity|]. split; [discriminate|]. split; [discriminate|]. split; [discriminate|]. rewrite mate_dist by lra. simpl; lra. }
  assert (M1 : m1 = 0).
  { destruct O1 as [O1|(j & q & (Hq & N & _) & O1)]; [exact O1|]. destruct j as [|[|[|j]]]; simpl in Hq; try discriminate Hq; try congruence.
    injection Hq as <-. simpl in O1, A1. lra. }
  assert (M0' : m0 = 0).
  { destruct O0 as [O0|(j & q & (Hq & N & _) & O0)]; [simpl in O0; lra|]. destruct j as [|[|[|j]]]; simpl in Hq; try discriminate Hq; try congruence.
    injection Hq as <-. exact O0. }
  subst m0 m1. destruct (moveParticleUsingPressureGradient (set_visc 1) ps2) as [|x [|y [|z l]]]; try discriminate L. simpl in Q0, Q1. injection Q0 as ->. injection Q1 as ->.
  cbn zeta in V0, V1. unfold pressure_force in V0, V1. unfold ps in V0, V1.
  rewrite (proj1 (couple_sumv _ _ _ _ _ _ _)) in V0. rewrite (proj2 (couple_sumv _ _ _ _ _ _ _)) in V1.
  change (s_reG (set_visc 1)) with (3/2) in *. rewrite !mate_dist, w_one in V0, V1 by lra.
  apply (f_equal vx) in V0, V1. cbn in V0, V1, D0, D1. intros X. apply (f_equal vx) in X. cbn in X. rewrite D0, D1, V0, V1 in X. lra.
Qed.

(** ** a collision turns the pair *)
Lemma couple_collision : exists (s : @settings Rnum) ps ps',
  listed (3/2) ps /\ indexed ps /\ apart ps /\ uniform 1000 ps /\ (forall p, In p ps -> p_type p = Fluid) /\
  collision s ps = Ok ps' /\ momentum ps' = momentum ps /\ mass_centre ps' = mass_centre ps /\ angular_momentum ps' <> angular_momentum ps.
Proof.
  set (v0 := @mkV Rnum 0 1 0). set (v1 := @mkV Rnum 0 (-1) 0). set (ps := couple v0 v1 1000 1000 0 0). set (s := set_visc 1).
  assert (NE : p_pos (mate 1 5 v1 1000 0 0) <> p_pos (mate 0 4 v0 1000 0 1)) by (intros X; apply (f_equal vx) in X; simpl in X; lra).
  destruct (C11_lemma s 1 0 1 ps _ _ eq_refl eq_refl) as (vi & vj & xi & xj & a & b & al & be & E & _ & Vi & Vj & _ & Z & _ & _ & Xi & Xj & _ & _ & S & B & _);
    [discriminate|reflexivity|intros _; simpl; lia|simpl; lra|intros _; simpl; lra|exact NE|simpl; lra|].
  assert (U : unitR (p_pos (mate 1 5 v1 1000 0 0)) (p_pos (mate 0 4 v0 1000 0 1)) = @mkV Rnum (-1) 0 0).
  { unfold unitR. rewrite mate_dist by lra. apply vec_eq; simpl; lra. }
  rewrite U in *. specialize (B eq_refl). destruct Z as [-> ->]; [unfold dotR; simpl; lra|]. simpl in S, B.
  assert (al = 1/8) by lra. assert (be = 1/8) by lra. subst al be.
  assert (F : forall ps', collide s 1 (@mkNb Rnum (Z.of_nat 0) 1) ps = Ok ps' -> collision s ps = Ok ps').
  { intros ps' X. unfold collision. change (List.length ps) with 2%nat. cbn [seq foldM].
    replace (collision1 s 0 ps) with (Ok ps) by reflexivity. cbn [bind].
    replace (collision1 s 1 ps) with (bind (collide s 1 (@mkNb Rnum (Z.of_nat 0) 1) ps) (fun a => Ok a)) by reflexivity. rewrite X. reflexivity. }
  exists s, ps. eexists. split; [apply couple_listed|]. split; [apply couple_indexed|]. split; [apply couple_apart|]. split; [apply couple_uniform|].
  split; [apply couple_fluid|]. split; [exact (F _ E)|]. subst vi vj xi xj.
  split; [apply vec_eq; simpl; lra|]. split; [apply vec_eq; simpl; lra|]. intros X. apply (f_equal vz) in X. simpl in X. lra.
Qed.

(** ** two fluid particles and a wall *)
Lemma trio_uniform : uniform 1000 trio.
Proof. intros p [<-|[<-|[<-|[]]]] _; reflexivity. Qed.
Lemma trio_walls_rest : walls_rest trio.
Proof. intros p [<-|[<-|[<-|[]]]] T _; try (exfalso; apply T; reflexivity). reflexivity. Qed.
Lemma set1_viscous : viscous set1 rv1.
Proof. unfold viscous. simpl. split; [lra|]. split; [lra|]. split; [left; reflexivity|]. lra. Qed.
Lemma w_two : w_spec (3/2) 2 = 0.
Proof. unfold w_spec. destruct (Rlt_dec 2 (3/2)); lra. Qed.
Lemma trio_diffusion : forall i p, nth_error trio i = Some p -> p_type p = Fluid -> diffusion set1 rv1 trio i p <= 1.
Proof.
  intros [|[|[|[|i]]]] p H T; simpl in H; try discriminate H; injection H as <-; try discriminate T;
  unfold diffusion, sum_others; cbn -[w_spec euclid at3];
  change (p_type (at3 0 Fluid 4 5 1 [nb 1 1])) with Fluid; change (p_type (at3 1 Fluid 5 5 (-1) [nb 0 1; nb 2 1])) with Fluid; change (p_type (at3 2 Wall 6 5 0 [nb 1 1])) with Wall;
  cbn -[w_spec euclid at3];
  rewrite ?(euclid_at _ _ _ _ 4 _ _ _ 5 _ _ 1), ?(euclid_at _ _ _ _ 4 _ _ _ 6 _ _ 2), ?(euclid_at _ _ _ _ 5 _ _ _ 4 _ _ 1), ?(euclid_at _ _ _ _ 5 _ _ _ 6 _ _ 1) by lra;
  rewrite ?w_one, ?w_two; lra.
Qed.
