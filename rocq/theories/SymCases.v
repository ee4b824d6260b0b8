(** * Cases for C69 and C70 *)
From Coq Require Import Reals Lra Psatz PeanoNat.
From Flocq Require Import Core.
From Verif Require Import StageCases SolverCases WholeCases.
From Verif Require Export SymWholeR.
Open Scope R_scope.
#[local] Remove Hints F64 : typeclass_instances.

(** [set1] with viscosity nu and domain d *)
Definition set_of (nu : R) (d : domR) : @settings Rnum :=
  @mkS Rnum false 2 1 (1/100) 1 (1/10) (1/2) d nu 1000 true (@mkV Rnum 0 (-10) 0) 10 0 (97/100) false (85/100)
       "Explicit"%string (1/2) (1/5) 10 (5/4) (1/5) (3/2) (3/2) (3/2) (3/2) "input.csv"%string false.
Definition box40 : domR := @mkDom Rnum (-20) 20 (-20) 20 0 0 40 40 0.
Definition meeting : list partR := pair_ 2 (-1).

Lemma machine_of nu d ps g k : d = box10 \/ d = box40 -> indexed ps -> at_rest ps ->
  exists m m', ready m /\ m_settings m = set_of nu d /\ m_ps m = ps /\ m_gravity m = g /\ m_calc m = @Explicit Rnum 4 k /\ stepForward no_solver m = Ok m'.
Proof.
  intros D I A.
  assert (US : usable (set_of nu d)) by (destruct D as [-> | ->]; unfold usable, proper_domain; simpl; (split; [lra|]); (split; [left; reflexivity|]); lra).
  assert (FT : ((Zfloor (xLength (s_domain (set_of nu d)) / s_reMax (set_of nu d)) + 3) * (Zfloor (yLength (s_domain (set_of nu d)) / s_reMax (set_of nu d)) + 3) * (Zfloor (zLength (s_domain (set_of nu d)) / s_reMax (set_of nu d)) + 3) <= int_max)%Z).
  { destruct D as [-> | ->]; simpl; [rewrite (Zfloor_imp 6) by (simpl; lra)|rewrite (Zfloor_imp 26) by (simpl; lra)]; replace (0 / (3 / 2)) with (IZR 0) by lra; rewrite Zfloor_IZR; unfold int_max; lia. }
  destruct (newMPS_total (set_of nu d) ps g (@Explicit Rnum 4 k) US FT) as [m E]. exists m. assert (RD : ready m) by (eapply newMPS_ready; eauto).
  assert (F : m_settings m = set_of nu d /\ m_ps m = ps /\ m_gravity m = g /\ m_calc m = @Explicit Rnum 4 k) by (unfold newMPS in E; binds E; binds E; binds E; binds E; inv E; auto).
  destruct F as (ES & EP & EG & EK). destruct (C51_run_lemma no_solver 1 m RD no_solver_sized) as [m' H]; [now rewrite ES|intros det q K; rewrite EK in K; discriminate|].
  apply steps_one in H. exists m'. auto 8.
Qed.
Lemma no_solver_exact : exact_solver no_solver.
Proof. intros ? ? ? ? X. discriminate X. Qed.

(** two particles that have collided are at different places *)
Lemma hit_apart k (p q : partR) : 0 < k -> p_type p = Fluid -> p_type q = Fluid -> 0 < p_dens p -> 0 < p_dens q -> p_pos p <> p_pos q -> hit_pos k p q <> hit_pos k q p.
Proof.
  intros K Tp Tq Dp Dq NE E. unfold hit_pos in E. rewrite (unit_opp _ _ NE), (euclid_sym (p_pos q)) in E. unfold share in E. rewrite Tp, Tq in E. cbn in E.
  assert (EP := euclid_pos _ _ NE). set (d := euclid (p_pos p) (p_pos q)) in *.
  assert (N : forall c : vecR -> R, (c = vx \/ c = vy \/ c = vz) -> c (unitR (p_pos p) (p_pos q)) = (c (p_pos q) - c (p_pos p)) / d).
  { intros c [-> | [-> | ->]]; unfold unitR, along, diffR, zeroR; fold d; cbn [vx vy vz]; field; lra. }
  assert (Z : forall c : vecR -> R, (c = vx \/ c = vy \/ c = vz) -> c (p_pos q) = c (p_pos p)).
  { intros c C. apply (f_equal c) in E. assert (H : k * ((c (p_pos q) - c (p_pos p)) / d) = 0).
    { rewrite <- (N c C). set (u := unitR (p_pos p) (p_pos q)) in *. destruct C as [-> | [-> | ->]]; unfold along, scaleR in E; cbn [vx vy vz] in E.
      - assert (vx (p_pos q) - vx (p_pos p) = d * vx u) by (rewrite (N vx) by auto; field; lra). 
        assert (((k - d) * (p_dens q / (p_dens p + p_dens q)) + (k - d) * (p_dens p / (p_dens q + p_dens p))) = k - d) by (field; lra). nra.
      - assert (vy (p_pos q) - vy (p_pos p) = d * vy u) by (rewrite (N vy) by auto; field; lra). 
        assert (((k - d) * (p_dens q / (p_dens p + p_dens q)) + (k - d) * (p_dens p / (p_dens q + p_dens p))) = k - d) by (field; lra). nra.
      - assert (vz (p_pos q) - vz (p_pos p) = d * vz u) by (rewrite (N vz) by auto; field; lra). 
        assert (((k - d) * (p_dens q / (p_dens p + p_dens q)) + (k - d) * (p_dens p / (p_dens q + p_dens p))) = k - d) by (field; lra). nra. }
    apply Rmult_integral in H. destruct H as [H|H]; [lra|]. assert (X : (c (p_pos q) - c (p_pos p)) / d * d = 0) by (rewrite H; ring). unfold Rdiv in X. rewrite Rmult_assoc, Rinv_l, Rmult_1_r in X; lra. }
  apply NE. apply vec_ext; symmetry; [apply (Z vx)|apply (Z vy)|apply (Z vz)]; auto.
Qed.

(** the step of [meeting]: after the prediction the particles are still one left of the
    other, and they collide *)
Lemma two_indices {A} (l : list A) i : List.length l = 2%nat -> nth_error l i <> None -> i = 0%nat \/ i = 1%nat.
Proof. intros LN H. apply nth_error_Some in H. lia. Qed.
Lemma meeting_stages nu m m' : 0 <= nu -> ready m -> m_settings m = set_of nu box10 -> m_ps m = meeting -> m_gravity m = grav -> m_calc m = @Explicit Rnum 4 10 ->
  stepForward no_solver m = Ok m' ->
  exists b b1 c c1 t, List.length b1 = 2%nat /\ 0 <= t /\ (nu = 0 -> t = 0) /\
    (exists n1 n2 n3 n4, stepMove m = Ok (n1, b) /\ setNeighbors n1 b = Ok (n2, b1) /\ stepCollide m n1 b = Ok (n3, c) /\ setNeighbors n3 c = Ok (n4, c1)) /\
    (exists p q, b = [p; q] /\ p_type p = Fluid /\ p_type q = Fluid /\ p_dens p = 1000 /\ p_dens q = 1000 /\
       p_pos p = @mkV Rnum (402/100 - 3 * t) (4999/1000) 0 /\ p_pos q = @mkV Rnum (499/100 + 3 * t) (4999/1000) 0) /\
    swept box10 b b1 /\ collided (m_settings m) b1 c /\ swept box10 c c1 /\
    (apart c1 -> map p_type (m_ps m') = map p_type c1).
Proof.
  intros NU RD ES EP EG EK H.
  destruct (step_stages no_solver m m' RD no_solver_exact) as (a & b & b1 & c & c1 & e & (n1 & n2 & n3 & n4 & K1 & K2 & K3 & K4 & _) & W1 & W2 & W3 & W4 & W5 & W6); auto.
  { rewrite EK. cbn. lra. }
  { rewrite EP. intros p [<-|[<-|[]]]; cbn; lra. }
  rewrite ES in *. cbn [s_domain set_of] in *. rewrite EP in W1.
  assert (AP : apart a) by (eapply (swept_apart (fun i => i)); eauto; apply pair_apart). specialize (W2 AP).
  assert (LA := W1). unfold swept in LA. apply Forall2_length in LA. cbn in LA.
  destruct (Forall2_nth _ _ _ 0%nat _ W1 eq_refl) as (p & P & (tp & lp & Ep) & AP1 & _). destruct (Forall2_nth _ _ _ 1%nat _ W1 eq_refl) as (q & Q & (tq & lq & Eq) & AQ1 & _).
  assert (TP : p_type p = Fluid) by (rewrite AP1; [reflexivity|split; [discriminate|unfold in_box; cbn; lra]]).
  assert (TQ : p_type q = Fluid) by (rewrite AQ1; [reflexivity|split; [discriminate|unfold in_box; cbn; lra]]).
  destruct a as [|p_ [|q_ [|]]]; try discriminate LA. cbn in P, Q. injection P as P. injection Q as Q. subst p_ q_.
  destruct W2 as (LB & W2). destruct (W2 0%nat p eq_refl) as (p' & P' & Tp' & Dp' & _ & Fp). destruct (W2 1%nat q eq_refl) as (q' & Q' & Tq' & Dq' & _ & Fq).
  destruct (Fp TP) as (Vp & Xp). destruct (Fq TQ) as (Vq & Xq). clear Fp Fq W2. cbn [s_dt s_nu s_dim s_reL set_of] in *.
  destruct b as [|p_ [|q_ [|]]]; try discriminate LB. cbn in P', Q'. injection P' as P'. injection Q' as Q'. subst p_ q_.
  set (kk := nu * (2 * 2) / (rv_n0 (m_rvL m) * rv_lambda (m_rvL m))) in *.
  assert (KK : 0 <= kk).
  { destruct (ready_refs m RD) as (_ & _ & RL). unfold kk, Rdiv. apply Rmult_le_pos; [lra|]. left. apply Rinv_0_lt_compat, Rmult_lt_0_compat; apply RL. }
  assert (X0 : p_pos p = @mkV Rnum 4 5 0 /\ p_vel p = @mkV Rnum 2 0 0 /\ p_dens p = 1000) by (rewrite Ep; cbn; auto).
  assert (X1 : p_pos q = @mkV Rnum 5 5 0 /\ p_vel q = @mkV Rnum (-1) 0 0 /\ p_dens q = 1000) by (rewrite Eq; cbn; auto).
  clear Ep Eq AP1 AQ1. destruct X0 as (Xp0 & Vp0 & Dp0), X1 as (Xq0 & Vq0 & Dq0).
  assert (EE : euclid (p_pos p) (p_pos q) = 1). { rewrite Xp0, Xq0. unfold euclid. cbn [vx vy vz]. replace (_ + _ + _) with (1 ^ 2) by lra. apply sqrt_pow2. lra. }
  assert (WW : w_spec (3/2) 1 = 1/2) by (unfold w_spec; destruct (Rlt_dec 1 (3/2)); lra).
  exists [p'; q'], b1, c, c1, (kk / 20000). split; [assert (LB1 := W3); unfold swept in LB1; apply Forall2_length in LB1; cbn in LB1; congruence|].
  split; [lra|]. split; [intros ->; unfold kk, Rdiv; ring|]. split; [exists n1, n2, n3, n4; auto|]. split.
  - exists p', q'. split; [reflexivity|]. split; [congruence|]. split; [congruence|]. split; [congruence|]. split; [congruence|].
    assert (S0 : shear (3/2) [p; q] 0 p = @mkV Rnum (1/2 * (-3)) 0 0).
    { unfold shear, sumv, sum_others. cbn [List.length seq map nth_error Nat.eqb orb]. rewrite TQ. cbn [Z.eqb]. unfold rsum. cbn [fold_right]. change (Fluid =? Ghost)%Z with false. cbn match. rewrite EE, WW, Vp0, Vq0. unfold scaleR, diffR. cbn [vx vy vz]. apply vec_ext; cbn [vx vy vz]; lra. }
    assert (S1 : shear (3/2) [p; q] 1 q = @mkV Rnum (1/2 * 3) 0 0).
    { unfold shear, sumv, sum_others. cbn [List.length seq map nth_error Nat.eqb orb]. rewrite TP. cbn [Z.eqb]. unfold rsum. cbn [fold_right]. change (Fluid =? Ghost)%Z with false. cbn match. rewrite (euclid_sym (p_pos q)), EE, WW, Vp0, Vq0. unfold scaleR, diffR. cbn [vx vy vz]. apply vec_ext; cbn [vx vy vz]; lra. }
    rewrite Xp, Xq, Vp, Vq, S0, S1, Xp0, Xq0, Vp0, Vq0, EG. unfold addR, scaleR, grav. cbn [vx vy vz]. split; apply vec_ext; cbn [vx vy vz]; lra.
  - split; [exact W3|]. split; [exact W4|]. split; [exact W5|]. intros A. destruct (W6 A) as (V1 & _ & V3).
    assert (L1 := counted_lessens _ _ _ V1). assert (L2 := corrected_lessens _ _ _ _ V3).
    apply (kept_iff c1 (m_ps m')); [destruct L1, L2; congruence|]. destruct V1 as (_ & V1), V3 as (_ & V3). intros i x y X Y. destruct (V1 i x X) as (x1 & X1 & T1 & _). destruct (V3 i x1 X1) as (x2 & X2 & T2 & _). congruence.
Qed.

Lemma meeting_dens (ps : list partR) p q : ps = [p; q] -> p_dens p = 1000 -> p_dens q = 1000 -> forall x, In x ps -> 0 < p_dens x.
Proof. intros -> A B x [<-|[<-|[]]]; rewrite ?A, ?B; lra. Qed.
Lemma one_contact s (ps : list partR) i j k : List.length ps = 2%nat -> contact s ps i j -> contact s ps i k -> j = k.
Proof.
  intros LN (p & q & P & Q & N & _) (p' & q' & P' & Q' & N' & _).
  assert (I := two_indices ps i LN ltac:(congruence)). assert (J := two_indices ps j LN ltac:(congruence)). assert (K := two_indices ps k LN ltac:(congruence)). lia.
Qed.
Lemma meeting_regular nu m m' : 0 <= nu -> ready m -> m_settings m = set_of nu box10 -> m_ps m = meeting -> m_gravity m = grav -> m_calc m = @Explicit Rnum 4 10 ->
  stepForward no_solver m = Ok m' -> regular m /\ (nu = 0 -> map p_type (m_ps m') = map p_type (m_ps m)).
Proof.
  intros NU RD ES EP EG EK H.
  destruct (meeting_stages nu m m' NU RD ES EP EG EK H) as (b & b1 & c & c1 & t & LB1 & T0 & TZ & (n1 & n2 & n3 & n4 & K1 & K2 & K3 & K4) & (p & q & Eb & Tp & Tq & Dp & Dq & Xp & Xq) & W3 & W4 & W5 & W6).
  destruct b1 as [|p1 [|q1 [|]]]; try discriminate LB1. rewrite Eb in W3.
  destruct (Forall2_nth _ _ _ 0%nat _ W3 eq_refl) as (p1_ & P & (tp & lp & Ep) & AP1 & NP1). destruct (Forall2_nth _ _ _ 1%nat _ W3 eq_refl) as (q1_ & Q & (tq & lq & Eq) & AQ1 & NQ1).
  cbn in P, Q. injection P as P. injection Q as Q. subst p1_ q1_.
  assert (P1 : p_pos p1 = p_pos p /\ p_dens p1 = 1000) by (rewrite Ep; cbn; auto). assert (Q1 : p_pos q1 = p_pos q /\ p_dens q1 = 1000) by (rewrite Eq; cbn; auto). clear Ep Eq. destruct P1 as (P1 & DP1), Q1 as (Q1 & DQ1).
  rewrite Xp in P1. rewrite Xq in Q1.
  assert (NE : p_pos p1 <> p_pos q1) by (rewrite P1, Q1; intros X; apply (f_equal vx) in X; cbn in X; lra).
  assert (DD : forall i x, nth_error [p1; q1] i = Some x -> p_type x <> Ghost -> 0 < p_dens x).
  { intros i x X _. apply (meeting_dens [p1; q1] p1 q1 eq_refl DP1 DQ1). eapply nth_error_In; eauto. }
  destruct (collided_each (m_settings m) [p1; q1] c DD (fun i j k A B => one_contact _ [p1; q1] i j k eq_refl A B) W4) as (LC & HC).
  destruct (HC 0%nat p1 eq_refl) as (H01 & H02). destruct (HC 1%nat q1 eq_refl) as (H11 & H12).
  assert (CD : {contact (m_settings m) [p1; q1] 0 1} + {~ contact (m_settings m) [p1; q1] 0 1}).
  { destruct (Z.eq_dec (p_type p1) Fluid) as [F|F]; [|right; intros (x & y & X & _ & _ & Z & _); cbn in X; congruence].
    destruct (Z.eq_dec (p_type q1) Ghost) as [G|G]; [right; intros (x & y & _ & X & _ & _ & Z & _); cbn in X; congruence|].
    destruct (Rlt_dec (euclid (p_pos p1) (p_pos q1)) (s_colDist (m_settings m))) as [l|l]; [|right; intros (x & y & X & Y & _ & _ & _ & Z & _); cbn in X, Y; congruence].
    destruct (Rlt_dec (euclid (p_pos p1) (p_pos q1)) (s_reMax (m_settings m))) as [l'|l']; [|right; intros (x & y & X & Y & _ & _ & _ & _ & Z); cbn in X, Y; congruence].
    left. exists p1, q1. repeat split; auto. }
  assert (TQ1 : p_type q1 = Fluid \/ p_type q1 = Ghost).
  { destruct (Z.eq_dec (p_type q1) Fluid); auto. right. apply NQ1. intros X. apply AQ1 in X. congruence. }
  assert (TP1 : p_type p1 = Fluid \/ p_type p1 = Ghost).
  { destruct (Z.eq_dec (p_type p1) Fluid); auto. right. apply NP1. intros X. apply AP1 in X. congruence. }
  (* the collided particles *)
  assert (RES : exists p2 q2, c = [p2; q2] /\ p_type p2 = p_type p1 /\ p_type q2 = p_type q1 /\
     (contact (m_settings m) [p1; q1] 0 1 /\ p_type q1 = Fluid /\ p_pos p2 = hit_pos (s_colDist (m_settings m)) p1 q1 /\ p_pos q2 = hit_pos (s_colDist (m_settings m)) q1 p1 \/
      ~ contact (m_settings m) [p1; q1] 0 1 /\ p_pos p2 = p_pos p1 /\ p_pos q2 = p_pos q1)).
  { destruct c as [|p2 [|q2 [|]]]; try discriminate LC. exists p2, q2. split; [reflexivity|]. destruct CD as [C|C].
    - assert (FQ : p_type q1 = Fluid) by (destruct TQ1; auto; destruct C as (x & y & _ & Y & _ & _ & Z & _); cbn in Y; congruence).
      assert (C' : contact (m_settings m) [p1; q1] 1 0) by (apply contact_sym; [exact C|intros y Y; cbn in Y; congruence]).
      destruct (H01 1%nat q1 C eq_refl) as (x & X & (A1 & _ & _ & A2)). destruct (H11 0%nat p1 C' eq_refl) as (y & Y & (B1 & _ & _ & B2)). cbn in X, Y. injection X as X. injection Y as Y. subst x y.
      split; [exact A1|]. split; [exact B1|]. left. split; [exact C|]. split; [exact FQ|]. split; [apply (A2 NE)|apply B2; congruence].
    - assert (NC0 : forall j, ~ contact (m_settings m) [p1; q1] 0 j).
      { intros j Cj. assert (J : j = 1%nat) by (assert (Cj' := Cj); destruct Cj' as (_ & y & _ & Y & N & _); assert (B := two_indices [p1; q1] j eq_refl ltac:(congruence)); lia). subst. contradiction. }
      assert (NC1 : forall j, ~ contact (m_settings m) [p1; q1] 1 j).
      { intros j Cj. assert (J : j = 0%nat) by (assert (Cj' := Cj); destruct Cj' as (_ & y & _ & Y & N & _); assert (B := two_indices [p1; q1] j eq_refl ltac:(congruence)); lia). subst.
        apply C. apply contact_sym; [exact Cj|]. intros y Y. cbn in Y. injection Y as <-. destruct TP1 as [F|F]; [exact F|]. destruct Cj as (x & z & _ & Z & _ & _ & G & _). cbn in Z. congruence. }
      assert (X := H02 NC0). assert (Y := H12 NC1). cbn in X, Y. injection X as X. injection Y as Y. subst p2 q2. split; [reflexivity|]. split; [reflexivity|]. right. auto. }
  destruct RES as (p2 & q2 & Ec & Tp2 & Tq2 & RES).
  assert (APC : apart c).
  { rewrite Ec. assert (NE2 : p_type p2 <> Ghost -> p_type q2 <> Ghost -> p_pos p2 <> p_pos q2).
    { intros G1 G2. destruct RES as [(C & FQ & A & B)|(_ & A & B)]; rewrite A, B; [|exact NE].
      apply hit_apart; [rewrite ES; cbn; lra| |exact FQ|lra|lra|exact NE]. destruct TP1; congruence. }
    intros [|[|i]] [|[|j]] x y X Y N G1 G2; cbn in X, Y; try (destruct i; discriminate); try (destruct j; discriminate); try congruence; injection X as <-; injection Y as <-; auto.
    intros E. apply NE2; auto. }
  assert (APC1 : apart c1) by (eapply (swept_apart (fun i => i)); eauto).
  split.
  - split; [rewrite EP; apply pair_apart|]. split.
    + intros n1' b' n2' b1' i j k M1 M2 C1 C2. rewrite K1 in M1. injection M1 as <- <-. rewrite K2 in M2. injection M2 as <- <-. exact (one_contact _ [p1; q1] i j k eq_refl C1 C2).
    + intros n1' b' n2' c' n3' c1' M1 M2 M3. rewrite K1 in M1. injection M1 as <- <-. rewrite K3 in M2. injection M2 as <- <-. rewrite K4 in M3. injection M3 as <- <-. exact APC1.
  - intros N0. specialize (TZ N0). subst t. rewrite (W6 APC1), EP. 
    assert (F1 : p_type p1 = Fluid) by (rewrite AP1; [exact Tp|split; [rewrite Tp; discriminate|rewrite Xp; unfold in_box; cbn; lra]]).
    assert (F2 : p_type q1 = Fluid) by (rewrite AQ1; [exact Tq|split; [rewrite Tq; discriminate|rewrite Xq; unfold in_box; cbn; lra]]).
    assert (EE : euclid (p_pos p1) (p_pos q1) = 97/100). { rewrite P1, Q1. unfold euclid. cbn [vx vy vz]. replace (_ + _ + _) with ((97/100) ^ 2) by lra. apply sqrt_pow2. lra. }
    assert (B : in_box box10 (p_pos p2) /\ in_box box10 (p_pos q2)).
    { destruct RES as [(C & FQ & A & B)|(_ & A & B)]; rewrite A, B; [|rewrite P1, Q1; unfold in_box; cbn; lra].
      unfold hit_pos. rewrite (unit_opp _ _ NE), (euclid_sym (p_pos q1)), EE. unfold share, unitR. rewrite EE, F1, F2, DP1, DQ1, P1, Q1, ES. unfold along, diffR, scaleR, zeroR, in_box. cbn. lra. }
    rewrite Ec in W5. inversion W5 as [|? p3 ? l3 (_ & A3 & _) Y3]; subst. inversion Y3 as [|? q3 ? l4 (_ & A4 & _) Y4]; subst. inversion Y4; subst.
    cbn [map]. rewrite A3, A4; [cbn; congruence|split; [rewrite Tq2, F2; discriminate|apply B]|split; [rewrite Tp2, F1; discriminate|apply B]].
Qed.

(** ** The same meeting turned by a right angle, numbered the other way round *)
Definition turn (x : vecR) : vecR := @mkV Rnum (10 - vy x) (vx x) (vz x).
Definition turnL (v : vecR) : vecR := @mkV Rnum (- vy v) (vx v) (vz v).
Definition swap (i : nat) : nat := (1 - i)%nat.
Definition pt2 (id : Z) (x y u v : R) : partR := @newParticle Rnum id Fluid (@mkV Rnum x y 0) (@mkV Rnum u v 0) 1000 0.
Definition turned : list partR := [ pt2 0 5 5 0 (-1); pt2 1 5 4 0 2 ].
Lemma turn_rigid : rigid turn turnL.
Proof. unfold rigid, turn, turnL, diffR, addR, scaleR, dotR. repeat split; intros; cbn [vx vy vz]; try (apply vec_ext; cbn [vx vy vz]); try ring; lra. Qed.
Lemma turn_axial : axial turnL.
Proof. intros a. unfold greatest, turnL. cbn [vx vy vz]. rewrite Rabs_Ropp, (Rmax_comm (Rabs (vy a))). reflexivity. Qed.
Lemma turned_twin : twin turn turnL swap meeting turned.
Proof.
  split; [reflexivity|]. split; [change (List.length meeting) with 2%nat; unfold swap; lia|]. intros [|[|i]] p P; cbn in P; try (destruct i; discriminate); injection P as <-; eexists; (split; [reflexivity|]); cbn; unfold turn, turnL; cbn [vx vy vz];
    (split; [reflexivity|]); (split; [reflexivity|]); split; apply vec_ext; cbn [vx vy vz]; lra.
Qed.
Lemma box10_turns x : in_box box10 x <-> in_box box10 (turn x).
Proof. unfold in_box, turn. cbn [vx vy vz]. cbn. split; intros; lra. Qed.
Lemma meeting_indexed : indexed meeting.
Proof. intros [|[|[|i]]] p H; simpl in H; inv H; reflexivity. Qed.
Lemma turned_indexed : indexed turned.
Proof. intros [|[|[|i]]] p H; simpl in H; inv H; reflexivity. Qed.
Lemma meeting_rest : at_rest meeting.
Proof. intros p [<-|[<-|[]]]; reflexivity. Qed.
Lemma turned_rest : at_rest turned.
Proof. intros p [<-|[<-|[]]]; reflexivity. Qed.
Lemma turned_case : exists m1 m1' m2 m2', m_ps m1 = meeting /\ m_ps m2 = turned /\ m_gravity m1 = @mkV Rnum 0 (-10) 0 /\ m_gravity m2 = @mkV Rnum 10 0 0 /\
  moved turn turnL swap m1 m2 /\ ready m1 /\ ready m2 /\ sensible (m_calc m1) (s_reMax (m_settings m1)) /\ positive_compress (m_calc m1) /\ (forall p, In p (m_ps m1) -> 0 < p_dens p) /\
  regular m1 /\ stepForward no_solver m1 = Ok m1' /\ stepForward no_solver m2 = Ok m2' /\ same_losses turn m1 m1' m2 m2'.
Proof.
  destruct (machine_of (1/1000) box10 meeting grav 10 (or_introl eq_refl) meeting_indexed meeting_rest) as (m1 & m1' & R1 & S1 & P1 & G1 & K1 & H1).
  destruct (machine_of (1/1000) box10 turned (turnL grav) 10 (or_introl eq_refl) turned_indexed turned_rest) as (m2 & m2' & R2 & S2 & P2 & G2 & K2 & H2).
  exists m1, m1', m2, m2'. split; [exact P1|]. split; [exact P2|]. split; [exact G1|]. split; [rewrite G2; unfold turnL, grav; cbn [vx vy vz]; apply vec_ext; cbn [vx vy vz]; lra|].
  split; [split; [rewrite P1, P2; exact turned_twin|rewrite S1, S2, G1, G2, K1, K2; auto]|]. split; [exact R1|]. split; [exact R2|]. split; [rewrite K1; cbn; lra|]. split; [rewrite K1; exact I|].
  split; [rewrite P1; intros p [<-|[<-|[]]]; cbn; lra|]. split; [eapply meeting_regular; eauto; lra|]. split; [exact H1|]. split; [exact H2|].
  left. rewrite S1, S2. exact box10_turns.
Qed.
(** only numbered the other way round *)
Definition swapped : list partR := [ pt2 0 5 5 (-1) 0; pt2 1 4 5 2 0 ].
Lemma swapped_twin : twin (fun x => x) (fun v => v) swap meeting swapped.
Proof.
  split; [reflexivity|]. split; [change (List.length meeting) with 2%nat; unfold swap; lia|]. intros [|[|i]] p P; cbn in P; try (destruct i; discriminate); injection P as <-; eexists; (split; [reflexivity|]); cbn; auto.
Qed.
Lemma swapped_indexed : indexed swapped.
Proof. intros [|[|[|i]]] p H; simpl in H; inv H; reflexivity. Qed.
Lemma swapped_rest : at_rest swapped.
Proof. intros p [<-|[<-|[]]]; reflexivity. Qed.
Lemma swapped_case : exists m1 m1' m2 m2', m_ps m1 = meeting /\ m_ps m2 = swapped /\
  twin (fun x => x) (fun v => v) swap (m_ps m1) (m_ps m2) /\ m_settings m2 = m_settings m1 /\ m_gravity m2 = m_gravity m1 /\ m_calc m2 = m_calc m1 /\
  ready m1 /\ ready m2 /\ sensible (m_calc m1) (s_reMax (m_settings m1)) /\ positive_compress (m_calc m1) /\ (forall p, In p (m_ps m1) -> 0 < p_dens p) /\
  regular m1 /\ stepForward no_solver m1 = Ok m1' /\ stepForward no_solver m2 = Ok m2'.
Proof.
  destruct (machine_of (1/1000) box10 meeting grav 10 (or_introl eq_refl) meeting_indexed meeting_rest) as (m1 & m1' & R1 & S1 & P1 & G1 & K1 & H1).
  destruct (machine_of (1/1000) box10 swapped grav 10 (or_introl eq_refl) swapped_indexed swapped_rest) as (m2 & m2' & R2 & S2 & P2 & G2 & K2 & H2).
  exists m1, m1', m2, m2'. split; [exact P1|]. split; [exact P2|]. split; [rewrite P1, P2; exact swapped_twin|]. split; [congruence|]. split; [congruence|]. split; [congruence|].
  split; [exact R1|]. split; [exact R2|]. split; [rewrite K1; cbn; lra|]. split; [rewrite K1; exact I|].
  split; [rewrite P1; intros p [<-|[<-|[]]]; cbn; lra|]. split; [eapply meeting_regular; eauto; lra|]. auto.
Qed.

(** ** and turned by the angle of a 3-4-5 triangle, without viscosity, in a larger box *)
Definition slant (x : vecR) : vecR := @mkV Rnum (3/5 * vx x + 4/5 * vy x) (3/5 * vy x - 4/5 * vx x) (vz x).
Definition slanted : list partR := [ pt2 0 (32/5) (-1/5) (6/5) (-8/5); pt2 1 7 (-1) (-3/5) (4/5) ].
Lemma slant_rigid : rigid slant slant.
Proof. unfold rigid, slant, diffR, addR, scaleR, dotR. repeat split; intros; cbn [vx vy vz]; try (apply vec_ext; cbn [vx vy vz]); try ring; lra. Qed.
Lemma slanted_twin : twin slant slant (fun i => i) meeting slanted.
Proof.
  split; [reflexivity|]. split; [auto|]. intros [|[|i]] p P; cbn in P; try (destruct i; discriminate); injection P as <-; eexists; (split; [reflexivity|]); cbn; unfold slant; cbn [vx vy vz];
    (split; [reflexivity|]); (split; [reflexivity|]); split; apply vec_ext; cbn [vx vy vz]; lra.
Qed.
Lemma slanted_indexed : indexed slanted.
Proof. intros [|[|[|i]]] p H; simpl in H; inv H; reflexivity. Qed.
Lemma slanted_rest : at_rest slanted.
Proof. intros p [<-|[<-|[]]]; reflexivity. Qed.
Lemma slanted_case : exists m1 m1' m2 m2', m_ps m1 = meeting /\ m_ps m2 = slanted /\ ~ axial slant /\
  moved slant slant (fun i => i) m1 m2 /\ ready m1 /\ ready m2 /\ sensible (m_calc m1) (s_reMax (m_settings m1)) /\ positive_compress (m_calc m1) /\ (forall p, In p (m_ps m1) -> 0 < p_dens p) /\
  plain_surface (m_calc m1) /\ regular m1 /\ stepForward no_solver m1 = Ok m1' /\ stepForward no_solver m2 = Ok m2' /\ same_losses slant m1 m1' m2 m2'.
Proof.
  destruct (machine_of 0 box10 meeting grav 10 (or_introl eq_refl) meeting_indexed meeting_rest) as (m1 & m1' & R1 & S1 & P1 & G1 & K1 & H1).
  destruct (machine_of 0 box40 slanted (slant grav) 10 (or_intror eq_refl) slanted_indexed slanted_rest) as (m2 & m2' & R2 & S2 & P2 & G2 & K2 & H2).
  destruct (meeting_regular 0 m1 m1' (Rle_refl 0) R1 S1 P1 G1 K1 H1) as (RG & KP).
  exists m1, m1', m2, m2'. split; [exact P1|]. split; [exact P2|].
  split. { intros A. specialize (A (@mkV Rnum 1 0 0)). unfold greatest, slant in A. cbn [vx vy vz] in A. rewrite Rabs_R1, Rabs_R0 in A. rewrite (Rabs_right (3/5 * 1 + 4/5 * 0)), (Rabs_left (3/5 * 0 - 4/5 * 1)) in A by lra. unfold Rmax in A. change (@num Rnum) with R in *. repeat destruct (Rle_dec _ _); lra. }
  split; [split; [rewrite P1, P2; exact slanted_twin|rewrite S1, S2, G1, G2, K1, K2; auto]|]. split; [exact R1|]. split; [exact R2|]. split; [rewrite K1; cbn; lra|]. split; [rewrite K1; exact I|].
  split; [rewrite P1; intros p [<-|[<-|[]]]; cbn; lra|]. split; [rewrite K1; exact I|]. split; [exact RG|]. split; [exact H1|]. split; [exact H2|].
  right. left. rewrite S1, S2. split; [|auto]. intros x. unfold in_box, slant. cbn [vx vy vz]. cbn. intros; lra.
Qed.

(** ** Surface detection by distribution looks at the axes *)
Definition up2 : list partR := [ set_nbrs (pt2 0 4 5 0 0) [nb 1 (11/10)]; set_nbrs (pt2 1 4 (61/10) 0 0) [nb 0 (11/10)] ].
Definition tilt (x : vecR) : vecR := @mkV Rnum (4 + 3/5 * (vx x - 4) + 4/5 * (vy x - 5)) (5 + 3/5 * (vy x - 5) - 4/5 * (vx x - 4)) (vz x).
Definition aside2 : list partR := [ set_nbrs (pt2 0 4 5 0 0) [nb 1 (11/10)]; set_nbrs (pt2 1 (488/100) (566/100) 0 0) [nb 0 (11/10)] ].
Definition strict_detector : @detector Rnum := @ByDistribution Rnum 4 1 1 (97/100).
Lemma tilt_rigid : rigid tilt slant.
Proof. unfold rigid, tilt, slant, diffR, addR, scaleR, dotR. repeat split; intros; cbn [vx vy vz]; try (apply vec_ext; cbn [vx vy vz]); try ring; lra. Qed.
Lemma two_listed (p q : partR) d : p_type p = Fluid -> p_type q = Fluid -> p_nbrs p = [nb 1 d] -> p_nbrs q = [nb 0 d] -> euclid (p_pos p) (p_pos q) = d -> d < 3/2 -> listed (3/2) [p; q].
Proof.
  intros Tp Tq Np Nq E D [|[|i]] x X _; cbn in X; try (destruct i; discriminate); injection X as <-; rewrite ?Np, ?Nq; (split; [repeat constructor; simpl; tauto|]); intros n; split.
  - intros [<-|[]]. exists 1%nat, q. split; [reflexivity|]. split; [discriminate|]. split; [rewrite Tq; discriminate|]. rewrite E. split; [lra|reflexivity].
  - intros ([|[|j]] & y & Y & N & _ & DD & ->); cbn in Y; try (destruct j; discriminate); [congruence|]. injection Y as <-. rewrite E. left; reflexivity.
  - intros [<-|[]]. exists 0%nat, p. split; [reflexivity|]. split; [discriminate|]. split; [rewrite Tp; discriminate|]. rewrite euclid_sym, E. split; [lra|reflexivity].
  - intros ([|[|j]] & y & Y & N & _ & DD & ->); cbn in Y; try (destruct j; discriminate); [|congruence]. injection Y as <-. rewrite euclid_sym, E. left; reflexivity.
Qed.
Lemma offset_two (p q : partR) : p_type q = Fluid -> euclid (p_pos p) (p_pos q) < 3/2 -> offset_sum (3/2) [p; q] 0 p = diffR (p_pos q) (p_pos p).
Proof.
  intros Tq E. unfold offset_sum, sumv, sum_others. cbn [List.length seq map nth_error Nat.eqb orb]. rewrite Tq. change (Fluid =? Ghost)%Z with false. cbn match. destruct (Rlt_dec _ _); [|contradiction].
  unfold rsum. cbn [fold_right]. unfold diffR. cbn [vx vy vz]. apply vec_ext; cbn [vx vy vz]; lra.
Qed.
Lemma up2_dist : euclid (@mkV Rnum 4 5 0) (@mkV Rnum 4 (61/10) 0) = 11/10.
Proof. unfold euclid. cbn [vx vy vz]. replace (_ + _ + _) with ((11/10) ^ 2) by lra. apply sqrt_pow2. lra. Qed.
Lemma aside2_dist : euclid (@mkV Rnum 4 5 0) (@mkV Rnum (488/100) (566/100) 0) = 11/10.
Proof. unfold euclid. cbn [vx vy vz]. replace (_ + _ + _) with ((11/10) ^ 2) by lra. apply sqrt_pow2. lra. Qed.
Lemma C70_refuted_lemma : exists f L det re (ps qs ps' qs' : list partR) p q,
  rigid f L /\ twin f L (fun i => i) ps qs /\ twin_press (fun i => i) ps qs /\ listed re ps /\ listed re qs /\ apart ps /\
  setBoundaryCondition det ps = Ok ps' /\ setBoundaryCondition det qs = Ok qs' /\ nth_error ps' 0 = Some p /\ nth_error qs' 0 = Some q /\ p_bc p = FreeSurface /\ p_bc q = Inner.
Proof.
  assert (L1 : listed (3/2) up2) by (apply (two_listed _ _ (11/10)); try reflexivity; [exact up2_dist|lra]).
  assert (L2 : listed (3/2) aside2) by (apply (two_listed _ _ (11/10)); try reflexivity; [exact aside2_dist|lra]).
  destruct (C29_lemma strict_detector (3/2) up2 L1) as (ps' & E1 & _ & H1). destruct (C29_lemma strict_detector (3/2) aside2 L2) as (qs' & E2 & _ & H2).
  destruct (H1 0%nat _ eq_refl) as (b1 & X1 & _ & F1 & _). destruct (H2 0%nat _ eq_refl) as (b2 & X2 & _ & _ & F2).
  exists tilt, slant, strict_detector, (3/2), up2, aside2, ps', qs'. eexists. eexists. split; [exact tilt_rigid|].
  split. { split; [reflexivity|]. split; [auto|]. intros [|[|i]] p P; cbn in P; try (destruct i; discriminate); injection P as <-; eexists; (split; [reflexivity|]); cbn; unfold tilt, slant; cbn [vx vy vz];
    (split; [reflexivity|]); (split; [reflexivity|]); split; apply vec_ext; cbn [vx vy vz]; lra. }
  split. { intros [|[|i]] p q P Q; cbn in P, Q; try (destruct i; discriminate); injection P as <-; injection Q as <-; auto. }
  split; [exact L1|]. split; [exact L2|].
  split. { intros [|[|i]] [|[|j]] p q P Q N _ _; cbn in P, Q; try (destruct i; discriminate); try (destruct j; discriminate); try congruence; injection P as <-; injection Q as <-; intros X; apply (f_equal vy) in X; cbn in X; lra. }
  split; [exact E1|]. split; [exact E2|]. split; [exact X1|]. split; [exact X2|].
  split.
  - change (b1 = FreeSurface). apply F1. split; [discriminate|]. split; [discriminate|]. cbn [surface strict_detector]. split; [cbn; lra|]. right. right. left.
    unfold up2. rewrite (offset_two (set_nbrs (pt2 0 4 5 0 0) [nb 1 (11/10)]) (set_nbrs (pt2 1 4 (61/10) 0 0) [nb 0 (11/10)])); [|reflexivity|eapply Rle_lt_trans; [apply Req_le, up2_dist|lra]]. cbn. rewrite Rabs_right; lra.
  - change (b2 = Inner). apply F2. split; [discriminate|]. split; [discriminate|]. cbn [surface strict_detector]. intros (_ & S).
    unfold aside2 in S. rewrite (offset_two (set_nbrs (pt2 0 4 5 0 0) [nb 1 (11/10)]) (set_nbrs (pt2 1 (488/100) (566/100) 0 0) [nb 0 (11/10)])) in S; [|reflexivity|eapply Rle_lt_trans; [apply Req_le, aside2_dist|lra]].
    destruct S as [S|S].
    + specialize (S 1%nat _ eq_refl ltac:(discriminate) ltac:(discriminate)). cbn in S. rewrite aside2_dist in S. lra.
    + cbn in S. rewrite (Rabs_right (488/100 - 4)), (Rabs_right (566/100 - 5)), (Rabs_right (0 - 0)) in S by lra. lra.
Qed.

(** ** A hundred steps of one particle *)
Lemma alone_regular (m : @mps Rnum) : List.length (m_ps m) = 1%nat -> regular m.
Proof.
  intros L. assert (AP : forall l : list partR, List.length l = 1%nat -> apart l).
  { intros l K i j p q P Q N. assert (i < List.length l)%nat by (apply nth_error_Some; congruence). assert (j < List.length l)%nat by (apply nth_error_Some; congruence). lia. }
  split; [now apply AP|]. split.
  - intros n1 b n2 b1 i j k M S (p & q & P & Q & N & _). apply move_length in M. apply setNeighbors_length in S.
    assert (i < List.length b1)%nat by (apply nth_error_Some; congruence). assert (j < List.length b1)%nat by (apply nth_error_Some; congruence). lia.
  - intros n1 b n2 c n3 c1 M C S. apply move_length in M. apply collide_length in C. apply setNeighbors_length in S. apply AP. lia.
Qed.
Lemma steps_at (S : @solver Rnum) n m m' : steps S n m m' -> List.length (m_ps m') = List.length (m_ps m) /\ m_settings m' = m_settings m.
Proof.
  intros H. split; [assert (X := steps_same_id _ _ _ _ H); apply Forall2_length in X; auto|]. induction H; [auto|]. destruct (step_static _ _ _ H0) as (C & _). congruence.
Qed.
Definition falling : list partR := [ pt2 0 4 5 1 0 ].
Definition drawn : list partR := [ pt2 0 5 4 0 1 ].
Lemma falling_indexed : indexed falling.
Proof. intros [|[|i]] p H; simpl in H; inv H; reflexivity. Qed.
Lemma falling_rest : at_rest falling.
Proof. intros p [<-|[]]; reflexivity. Qed.
Lemma drawn_indexed : indexed drawn.
Proof. intros [|[|i]] p H; simpl in H; inv H; reflexivity. Qed.
Lemma drawn_rest : at_rest drawn.
Proof. intros p [<-|[]]; reflexivity. Qed.
Lemma run_of (m : @mps Rnum) nu d n0 k n : ready m -> m_settings m = set_of nu d -> m_calc m = @Explicit Rnum n0 k -> exists m', steps no_solver n m m'.
Proof. intros RD ES EK. apply (C51_run_lemma no_solver n m RD no_solver_sized); [now rewrite ES|intros det q K; rewrite EK in K; discriminate]. Qed.
Lemma drawn_case : exists m1 m1' m2 m2', m_ps m1 = falling /\ m_ps m2 = drawn /\ moved turn turnL (fun i => i) m1 m2 /\ ready m1 /\ ready m2 /\
  sensible (m_calc m1) (s_reMax (m_settings m1)) /\ positive_compress (m_calc m1) /\ (forall p, In p (m_ps m1) -> 0 < p_dens p) /\
  steps no_solver 100 m1 m1' /\ steps no_solver 100 m2 m2' /\
  (forall k a a' b b', (k < 100)%nat -> steps no_solver k m1 a -> stepForward no_solver a = Ok a' -> steps no_solver k m2 b -> stepForward no_solver b = Ok b' ->
     regular a /\ same_losses turn a a' b b').
Proof.
  destruct (machine_of (1/1000) box10 falling grav 10 (or_introl eq_refl) falling_indexed falling_rest) as (m1 & _ & R1 & S1 & P1 & G1 & K1 & _).
  destruct (machine_of (1/1000) box10 drawn (turnL grav) 10 (or_introl eq_refl) drawn_indexed drawn_rest) as (m2 & _ & R2 & S2 & P2 & G2 & K2 & _).
  destruct (run_of m1 _ _ _ _ 100 R1 S1 K1) as [m1' H1]. destruct (run_of m2 _ _ _ _ 100 R2 S2 K2) as [m2' H2].
  exists m1, m1', m2, m2'. split; [exact P1|]. split; [exact P2|].
  split. { split; [|rewrite S1, S2, G1, G2, K1, K2; auto]. rewrite P1, P2. split; [reflexivity|]. split; [auto|]. intros [|i] p P; cbn in P; try (destruct i; discriminate); injection P as <-; eexists; (split; [reflexivity|]); cbn; unfold turn, turnL; cbn [vx vy vz];
    (split; [reflexivity|]); (split; [reflexivity|]); split; apply vec_ext; cbn [vx vy vz]; lra. }
  split; [exact R1|]. split; [exact R2|]. split; [rewrite K1; cbn; lra|]. split; [rewrite K1; exact I|]. split; [rewrite P1; intros p [<-|[]]; cbn; lra|]. split; [exact H1|]. split; [exact H2|].
  intros k a a' b b' _ HA _ HB _. destruct (steps_at _ _ _ _ HA) as (LA & SA). destruct (steps_at _ _ _ _ HB) as (LB & SB).
  split; [apply alone_regular; rewrite LA, P1; reflexivity|]. left. rewrite SA, SB, S1, S2. exact box10_turns.
Qed.
