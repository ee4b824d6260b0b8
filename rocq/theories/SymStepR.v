(** * The stages of a step commute with rigid motions and renumbering (C69, C70) *)
From Coq Require Import Reals Lra Psatz PeanoNat.
From Verif Require Export SymCollideR.
Open Scope R_scope.
#[local] Remove Hints F64 : typeclass_instances.

(** ** A maximum principle *)
Lemma argmax (D : nat -> R) n : exists i, (i <= n)%nat /\ forall j, (j <= n)%nat -> D j <= D i.
Proof.
  induction n as [|n (i & Hi & M)].
  - exists O. split; [lia|]. intros j J. replace j with O by lia. lra.
  - destruct (Rle_dec (D (S n)) (D i)) as [l|l].
    + exists i. split; [lia|]. intros j J. destruct (Nat.eq_dec j (S n)) as [->|]; [exact l|apply M; lia].
    + exists (S n). split; [lia|]. intros j J. destruct (Nat.eq_dec j (S n)) as [->|]; [lra|]. apply Rle_trans with (D i); [apply M; lia|lra].
Qed.
Lemma max_principle (ps : list partR) (D : nat -> R) (a : nat -> nat -> partR -> R) k : 0 < k ->
  (forall i p j q, nth_error ps i = Some p -> nth_error ps j = Some q -> j <> i -> p_type q <> Ghost -> D i <> 0 -> 0 <= a i j q) ->
  (forall i p, nth_error ps i = Some p -> D i <> 0 -> sum_others ps i (fun j q => a i j q * (D i - D j)) + k * D i = 0) ->
  forall i, (i < List.length ps)%nat -> D i <= 0.
Proof.
  intros K A E i Hi. destruct (List.length ps) as [|n] eqn:LN; [lia|]. destruct (argmax D n) as (m & Hm & M). apply Rle_trans with (D m); [apply M; lia|].
  destruct (Rle_dec (D m) 0) as [l|l]; [exact l|exfalso]. assert (N0 : D m <> 0) by lra.
  destruct (nth_error ps m) as [p|] eqn:P; [|apply nth_error_None in P; lia]. specialize (E m p P N0).
  assert (0 <= sum_others ps m (fun j q => a m j q * (D m - D j))).
  { unfold sum_others. apply rsum_nonneg. intros v V. apply in_map_iff in V. destruct V as (j & <- & J). apply in_seq in J. destruct (nth_error ps j) as [q|] eqn:Q; [|lra].
    destruct (Nat.eqb_spec j m); [simpl; lra|]. destruct (Z.eqb_spec (p_type q) Ghost); [simpl; lra|]. cbn [orb]. apply Rmult_le_pos; [now apply (A m p)|]. assert (D j <= D m) by (apply M; lia). lra. }
  assert (0 < k * D m) by (apply Rmult_lt_0_compat; lra). lra.
Qed.
Lemma sum_others_sub ps i g h : sum_others ps i g - sum_others ps i h = sum_others ps i (fun j q => g j q - h j q).
Proof.
  unfold sum_others. induction (seq 0 (List.length ps)) as [|j l IH]; [simpl; ring|]. cbn [map]. unfold rsum in *. cbn [fold_right] in *.
  rewrite <- IH. destruct (nth_error ps j); [|ring]. destruct (Nat.eqb j i || (p_type p =? Ghost)%Z); ring.
Qed.
Lemma sum_others_opp ps i g : sum_others ps i (fun j q => - g j q) = - sum_others ps i g.
Proof.
  unfold sum_others. induction (seq 0 (List.length ps)) as [|j l IH]; [simpl; ring|]. cbn [map]. unfold rsum in *. cbn [fold_right] in *.
  rewrite IH. destruct (nth_error ps j); [|ring]. destruct (Nat.eqb j i || (p_type p =? Ghost)%Z); ring.
Qed.
Lemma w_spec_nonneg re d : 0 < d -> 0 <= w_spec re d.
Proof.
  intros D. unfold w_spec. destruct (Rlt_dec d re); [|lra]. assert (1 < re / d); [|lra]. apply Rmult_lt_reg_r with d; [lra|]. unfold Rdiv. rewrite Rmult_assoc, Rinv_l, Rmult_1_r; lra.
Qed.

Section Twin.
Variables f L : vecR -> vecR.
Hypothesis RG : rigid f L.
Variable sigma : nat -> nat.

(** ** Collisions *)
Lemma contact_twin s s' ps qs i j : twin f L sigma ps qs -> s_colDist s' = s_colDist s -> s_reMax s' = s_reMax s ->
  contact s ps i j -> contact s' qs (sigma i) (sigma j).
Proof.
  intros T E1 E2 (p & q & P & Q & N & F1 & F2 & D1 & D2). destruct (twin_at _ _ _ _ _ _ _ T P) as (p' & P' & Tp & _ & Xp & _). destruct (twin_at _ _ _ _ _ _ _ T Q) as (q' & Q' & Tq & _ & Xq & _).
  exists p', q'. rewrite Xp, Xq, (euclid_f f L RG). rewrite E1, E2, Tp, Tq. repeat split; auto. intros X. apply N. eapply twin_inj; eauto.
Qed.
Lemma contact_back s s' ps qs i' j' : twin f L sigma ps qs -> s_colDist s' = s_colDist s -> s_reMax s' = s_reMax s ->
  contact s' qs i' j' -> exists i j, sigma i = i' /\ sigma j = j' /\ contact s ps i j.
Proof.
  intros T E1 E2 (p' & q' & P' & Q' & N & F1 & F2 & D1 & D2). destruct (twin_back _ _ _ _ _ _ _ T P') as (i & p & <- & P & Tp & _ & Xp & _). destruct (twin_back _ _ _ _ _ _ _ T Q') as (j & q & <- & Q & Tq & _ & Xq & _).
  exists i, j. split; [reflexivity|]. split; [reflexivity|]. exists p, q. rewrite Xp, Xq, (euclid_f f L RG) in D1, D2. rewrite E1 in D1. rewrite E2 in D2. rewrite Tp in F1. rewrite Tq in F2. assert (NN : i <> j) by congruence. repeat split; auto.
Qed.
Lemma struck_twin e k (p q p' u v u' : partR) : struck e k p q p' -> struck e k u v u' ->
  p_type u = p_type p -> p_dens u = p_dens p -> p_pos u = f (p_pos p) -> p_vel u = L (p_vel p) ->
  p_type v = p_type q -> p_dens v = p_dens q -> p_pos v = f (p_pos q) -> p_vel v = L (p_vel q) ->
  p_type u' = p_type p' /\ p_dens u' = p_dens p' /\ p_pos u' = f (p_pos p') /\ p_vel u' = L (p_vel p').
Proof.
  intros (T1 & D1 & S1 & N1) (T2 & D2 & S2 & N2) Tu Du Xu Vu Tv Dv Xv Vv. split; [congruence|]. split; [congruence|].
  destruct (Req_dec (euclid (p_pos p) (p_pos q)) 0) as [E|E].
  - apply euclid_0 in E. destruct (S1 E) as (A & B). destruct (S2 ltac:(rewrite Xu, Xv, E; reflexivity)) as (A' & B'). rewrite A, B, A', B'. auto.
  - assert (NE : p_pos p <> p_pos q) by (intros X; apply E; rewrite X; apply euclid_same).
    assert (NE' : p_pos u <> p_pos v) by (rewrite Xu, Xv; intros X; apply NE; revert X; now apply (f_inj f L)).
    destruct (N1 NE) as (A & B). destruct (N2 NE') as (A' & B'). rewrite A, B, A', B'.
    assert (SH : share u v = share p q) by (unfold share; now rewrite Tv, Du, Dv).
    split.
    + unfold hit_pos. rewrite SH, Xu, Xv, (euclid_f f L RG), (unit_f f L RG), (f_along f L RG). reflexivity.
    + unfold hit_vel. rewrite SH, Xu, Xv, Vu, Vv, (unit_f f L RG), <- (L_diff f L RG). destruct RG as (_ & _ & _ & LD). rewrite LD.
      destruct (Rlt_dec _ 0); [|reflexivity]. now rewrite (L_along f L RG).
Qed.
Lemma collided_twin s s' ps a qs b : twin f L sigma ps qs -> collided s ps a -> collided s' qs b ->
  s_colDist s' = s_colDist s -> s_reMax s' = s_reMax s -> s_restitution s' = s_restitution s ->
  (forall i p, nth_error ps i = Some p -> p_type p <> Ghost -> 0 < p_dens p) ->
  (forall i j k, contact s ps i j -> contact s ps i k -> j = k) -> twin f L sigma a b.
Proof.
  intros T C1 C2 E1 E2 E3 DP ONE.
  assert (DP' : forall i p, nth_error qs i = Some p -> p_type p <> Ghost -> 0 < p_dens p).
  { intros i q Q G. destruct (twin_back _ _ _ _ _ _ _ T Q) as (i0 & p & _ & P & Tp & Dq & _). rewrite Dq. apply (DP i0 p P). congruence. }
  assert (ONE' : forall i j k, contact s' qs i j -> contact s' qs i k -> j = k).
  { intros i j k CJ CK. destruct (contact_back s s' ps qs _ _ T E1 E2 CJ) as (i0 & j0 & <- & <- & CJ0). destruct (contact_back s s' ps qs _ _ T E1 E2 CK) as (i1 & k0 & Ei & <- & CK0).
    assert (i1 = i0). { destruct CJ0 as (p & _ & P & _). destruct CK0 as (q & _ & Q & _). eapply twin_inj; eauto. } subst i1. now rewrite (ONE _ _ _ CJ0 CK0). }
  destruct (collided_each s ps a DP ONE C1) as (L1 & H1). destruct (collided_each s' qs b DP' ONE' C2) as (L2 & H2).
  split; [rewrite L1, L2; exact (proj1 T)|]. split; [rewrite L1; exact (proj1 (proj2 T))|]. intros i p' P'.
  assert (exists p, nth_error ps i = Some p) as (p & P). { destruct (nth_error ps i) eqn:X; [eauto|]. apply nth_error_None in X. assert (nth_error a i <> None) as Y by congruence. apply nth_error_Some in Y. lia. }
  destruct (twin_at _ _ _ _ _ _ _ T P) as (u & U & Tu & Du & Xu & Vu). destruct (H1 i p P) as (HIT & MISS). destruct (H2 _ u U) as (HIT' & MISS').
  assert (DEC : (exists j, contact s ps i j) \/ ~ (exists j, contact s ps i j)).
  { assert (BD : forall n, (exists j, (j < n)%nat /\ contact s ps i j) \/ ~ (exists j, (j < n)%nat /\ contact s ps i j)).
    { induction n as [|n [(j & J & C)|NC]]; [right; intros (j & J & _); lia|left; exists j; split; [lia|exact C]|].
      assert (CD : contact s ps i n \/ ~ contact s ps i n).
      { destruct (nth_error ps n) as [q|] eqn:Q; [|right; intros (x & y & _ & Y & _); congruence].
        destruct (Nat.eq_dec i n); [right; intros (x & y & _ & _ & Y & _); congruence|].
        destruct (Z.eq_dec (p_type p) Fluid) as [F|F]; [|right; intros (x & y & X & _ & _ & Y & _); congruence].
        destruct (Z.eq_dec (p_type q) Ghost) as [G|G]; [right; intros (x & y & _ & Y & _ & _ & Z & _); congruence|].
        destruct (Rlt_dec (euclid (p_pos p) (p_pos q)) (s_colDist s)); [|right; intros (x & y & X & Y & _ & _ & _ & Z & _); congruence].
        destruct (Rlt_dec (euclid (p_pos p) (p_pos q)) (s_reMax s)); [|right; intros (x & y & X & Y & _ & _ & _ & _ & Z); congruence].
        left. exists p, q. repeat split; auto. }
      destruct CD as [C|C]; [left; exists n; split; [lia|exact C]|]. right. intros (j & J & Cj). destruct (Nat.eq_dec j n) as [->|]; [contradiction|]. apply NC. exists j. split; [lia|exact Cj]. }
    destruct (BD (List.length ps)) as [(j & _ & C)|NC]; [left; eauto|]. right. intros (j & C). apply NC. exists j. split; [|exact C]. destruct C as (_ & q & _ & Q & _). apply nth_error_Some. congruence. }
  destruct DEC as [(j & C)|NC].
  - assert (C' := C). destruct C' as (p0 & q & P0 & Q & _). destruct (HIT j q C Q) as (p1 & P1 & S1). rewrite P' in P1. injection P1 as P1. subst p1.
    assert (CT := contact_twin s s' ps qs i j T E1 E2 C). destruct (twin_at _ _ _ _ _ _ _ T Q) as (v & V & Tv & Dv & Xv & Vv).
    destruct (HIT' _ v CT V) as (u' & U' & S2). exists u'. split; [exact U'|]. rewrite E1, E3 in S2. exact (struck_twin _ _ _ _ _ _ _ _ S1 S2 Tu Du Xu Vu Tv Dv Xv Vv).
  - rewrite MISS in P' by (intros j Cj; apply NC; eauto). injection P' as P'. subst p'. exists u. split; [|auto]. apply MISS'. intros j' C'.
    destruct (contact_back s s' ps qs _ _ T E1 E2 C') as (i0 & j0 & Ei & _ & C0). apply NC. exists j0. replace i with i0; [exact C0|]. destruct C0 as (x & _ & X & _). eapply twin_inj; eauto.
Qed.

(** ** Number densities *)
Lemma counted_twin re ps a qs b : twin f L sigma ps qs -> counted re ps a -> counted re qs b ->
  twin f L sigma a b /\ forall i p q, nth_error a i = Some p -> nth_error b (sigma i) = Some q -> p_nd q = p_nd p.
Proof.
  intros T (L1 & H1) (L2 & H2).
  assert (K : forall i p', nth_error a i = Some p' -> exists q', nth_error b (sigma i) = Some q' /\
    (p_type q' = p_type p' /\ p_dens q' = p_dens p' /\ p_pos q' = f (p_pos p') /\ p_vel q' = L (p_vel p')) /\ p_nd q' = p_nd p').
  { intros i p' P'. assert (exists p, nth_error ps i = Some p) as (p & P). { destruct (nth_error ps i) eqn:X; [eauto|]. apply nth_error_None in X. assert (nth_error a i <> None) as Y by congruence. apply nth_error_Some in Y. lia. }
    destruct (H1 i p P) as (p1 & P1 & Tp & Dp & Vp & Xp & G & NG). rewrite P' in P1. injection P1 as P1. subst p1.
    destruct (twin_at _ _ _ _ _ _ _ T P) as (q & Q & Tq & Dq & Xq & Vq). destruct (H2 _ q Q) as (q1 & Q1 & Tq1 & Dq1 & Vq1 & Xq1 & G' & NG').
    exists q1. split; [exact Q1|]. split; [repeat split; congruence|]. destruct (Z.eq_dec (p_type p) Ghost) as [E|E].
    - rewrite G by exact E. apply G'. congruence.
    - rewrite NG by exact E. rewrite NG' by congruence. apply (sum_twin f L sigma ps qs i p _ _ T P). intros j x y X Y N _.
      destruct (twin_at _ _ _ _ _ _ _ T X) as (y' & Y' & _ & _ & Xy & _). assert (y' = y) by congruence. subst y'. now rewrite Xy, Xq, (euclid_f f L RG). }
  split.
  - split; [rewrite L1, L2; exact (proj1 T)|]. split; [rewrite L1; exact (proj1 (proj2 T))|]. intros i p P. destruct (K i p P) as (q & Q & X & _). exists q. split; [exact Q|exact X].
  - intros i p q P Q. destruct (K i p P) as (q' & Q' & _ & X). congruence.
Qed.

(** ** The surface *)
Lemma over_greatest r (v : vecR) : (r < Rabs (vx v) \/ r < Rabs (vy v) \/ r < Rabs (vz v)) <-> r < greatest v.
Proof.
  unfold greatest. set (a := Rabs (vx v)). set (b := Rabs (vy v)). set (c := Rabs (vz v)). unfold Rmax. destruct (Rle_dec a b); [destruct (Rle_dec b c)|destruct (Rle_dec a c)]; split; intros; lra.
Qed.
Definition plain_detector (det : @detector Rnum) : Prop := match det with ByDistribution _ _ _ _ => False | _ => True end.
Lemma surface_twin det re ps qs i p q : twin f L sigma ps qs -> nth_error ps i = Some p -> nth_error qs (sigma i) = Some q -> p_nd q = p_nd p ->
  axial L \/ plain_detector det -> (surface det re ps i p <-> surface det re qs (sigma i) q).
Proof.
  intros T P Q ND AX. destruct det as [thr n0|n0 l0 dr ndr]; cbn [surface].
  - rewrite ND. tauto.
  - destruct AX as [AX|[]]. destruct (twin_at _ _ _ _ _ _ _ T P) as (q0 & Q0 & Tq & _ & Xq & _). assert (q0 = q) by congruence. subst q0.
    assert (OS : offset_sum re qs (sigma i) q = L (offset_sum re ps i p)).
    { unfold offset_sum. apply (sumv_twin f L RG sigma ps qs i p _ _ T P). intros j x y X Y N _. destruct (twin_at _ _ _ _ _ _ _ T X) as (y' & Y' & _ & _ & Xy & _). assert (y' = y) by congruence. subst y'.
      rewrite Xy, Xq, (euclid_f f L RG). destruct (Rlt_dec _ re); [|now rewrite (L_zero f L RG)]. now rewrite (diff_f f L RG). }
    rewrite !over_greatest, OS, AX, ND. split; intros (A & [B|B]); (split; [exact A|]); [left|right; exact B|left|right; exact B].
    + intros j' y Y N G. destruct (twin_back _ _ _ _ _ _ _ T Y) as (j & x & <- & X & Tx & _ & Xx & _). rewrite Xx, Xq, (euclid_f f L RG). apply (B j x X); congruence.
    + intros j x X N G. destruct (twin_at _ _ _ _ _ _ _ T X) as (y & Y & Ty & _ & Xy & _). rewrite <- (euclid_f f L RG), <- Xq, <- Xy. apply (B (sigma j) y Y); [|congruence]. intros E. apply N. eapply twin_inj; eauto.
Qed.

(** ** Pressures *)
Lemma pressed_twin k reMax ps qs : twin f L sigma ps qs -> pressed k reMax ps -> pressed k reMax qs ->
  (forall i p q, nth_error ps i = Some p -> nth_error qs (sigma i) = Some q -> p_nd q = p_nd p) ->
  sensible k reMax -> positive_compress k -> apart ps -> (forall i p, nth_error ps i = Some p -> p_type p <> Ghost -> 0 < p_dens p) ->
  axial L \/ plain_surface k ->
  forall i p q, nth_error ps i = Some p -> nth_error qs (sigma i) = Some q -> p_press q = p_press p.
Proof.
  intros T H1 H2 ND SN PC AP DP AX. destruct k as [det w|n0 c]; cbn [pressed] in *.
  2: { intros i p q P Q. destruct (twin_at _ _ _ _ _ _ _ T P) as (q0 & Q0 & Tq & Dq & _). assert (q0 = q) by congruence. subst q0.
    rewrite (H1 p (nth_error_In _ _ P)), (H2 q (nth_error_In _ _ Q)), Tq, Dq, (ND i p q P Q). reflexivity. }
  - destruct H1 as (x & H1), H2 as (y & H2). destruct SN as (_ & N0N & N0L & LA & DT). destruct PC as (CO & DI).
    assert (AX' : axial L \/ plain_detector det) by (destruct AX as [A|A]; [now left|right; destruct det; exact A]).
    set (kc := q_compress w / q_dt w ^ 2) in *. assert (KC : 0 < kc).
    { unfold kc, Rdiv. apply Rmult_lt_0_compat; [exact CO|]. apply Rinv_0_lt_compat. rewrite <- Rsqr_pow2. now apply Rsqr_pos_lt. }
    set (co := 2 * IZR (q_dim w) / (q_n0L w * q_lambda w)) in *. assert (COE : 0 <= co).
    { unfold co, Rdiv. apply Rmult_le_pos; [assert (HZ : 0 <= IZR (q_dim w)) by (now apply IZR_le); lra|]. left. apply Rinv_0_lt_compat, Rmult_lt_0_compat; assumption. }
    set (a := fun i (j : nat) (r : partR) => match nth_error ps i with Some p => if (p_type r =? DummyWall)%Z then 0 else co * w_spec (q_reL w) (euclid (p_pos p) (p_pos r)) / p_dens p | None => 0 end).
    set (D := fun i => x i - y (sigma i)).
    assert (INN : forall i p, nth_error ps i = Some p -> D i <> 0 -> (p_type p <> Ghost /\ p_type p <> DummyWall /\ ~ surface det reMax ps i p) /\
              exists q, nth_error qs (sigma i) = Some q /\ p_type q = p_type p /\ p_dens q = p_dens p /\ p_pos q = f (p_pos p) /\ p_nd q = p_nd p /\ (p_type q <> Ghost /\ p_type q <> DummyWall /\ ~ surface det reMax qs (sigma i) q)).
    { intros i p P DN. destruct (twin_at _ _ _ _ _ _ _ T P) as (q & Q & Tq & Dq & Xq & _). assert (N := ND i p q P Q). assert (SU := surface_twin det reMax ps qs i p q T P Q N AX').
      assert (IF : (p_type p <> Ghost /\ p_type p <> DummyWall /\ ~ surface det reMax ps i p) <-> (p_type q <> Ghost /\ p_type q <> DummyWall /\ ~ surface det reMax qs (sigma i) q)) by (rewrite Tq, SU; tauto).
      destruct (H1 i p P) as (_ & A1 & _). destruct (H2 _ q Q) as (_ & A2 & _). cbv zeta in A1, A2.
      assert (DEC : (p_type p <> Ghost /\ p_type p <> DummyWall /\ ~ surface det reMax ps i p) \/ ~ (p_type p <> Ghost /\ p_type p <> DummyWall /\ ~ surface det reMax ps i p)) by tauto.
      destruct DEC as [I|I]; [split; [exact I|]; exists q; repeat (split; [assumption|]); now apply IF|].
      exfalso. apply DN. unfold D. rewrite (A1 I), (A2 (fun Z => I (proj2 IF Z))). ring. }
    assert (EQ : forall i p, nth_error ps i = Some p -> D i <> 0 -> sum_others ps i (fun j r => a i j r * (D i - D j)) + kc * D i = 0).
    { intros i p P DN. destruct (INN i p P DN) as (I1 & q & Q & Tq & Dq & Xq & Nq & I2). destruct (H1 i p P) as (_ & _ & A1). destruct (H2 _ q Q) as (_ & _ & A2). specialize (A1 I1). specialize (A2 I2).
      assert (S1 : sum_others ps i (fun j r => a i j r * (x i - x j)) + kc * x i = q_gamma w / q_dt w ^ 2 * ((p_nd p - q_n0N w) / q_n0N w)).
      { rewrite <- A1. f_equal. apply sum_others_ext. intros j r R N G. unfold a. rewrite P. destruct (p_type r =? DummyWall)%Z; ring. }
      assert (S2 : sum_others ps i (fun j r => a i j r * (y (sigma i) - y (sigma j))) + kc * y (sigma i) = q_gamma w / q_dt w ^ 2 * ((p_nd p - q_n0N w) / q_n0N w)).
      { rewrite <- Nq, <- A2. f_equal. symmetry. apply (sum_twin f L sigma ps qs i p _ _ T P). intros j u v U V N G. destruct (twin_at _ _ _ _ _ _ _ T U) as (v' & V' & Tv & _ & Xv & _). assert (v' = v) by congruence. subst v'.
        unfold a. rewrite P, Tv, Xv, Xq, Dq, (euclid_f f L RG). destruct (p_type u =? DummyWall)%Z; ring. }
      assert (S3 := sum_others_sub ps i (fun j r => a i j r * (x i - x j)) (fun j r => a i j r * (y (sigma i) - y (sigma j)))).
      assert (S4 : sum_others ps i (fun j r => a i j r * (x i - x j) - a i j r * (y (sigma i) - y (sigma j))) = sum_others ps i (fun j r => a i j r * (D i - D j))) by (apply sum_others_ext; intros; unfold D; ring).
      rewrite <- S4, <- S3. unfold D. lra. }
    assert (AN : forall i p j r, nth_error ps i = Some p -> nth_error ps j = Some r -> j <> i -> p_type r <> Ghost -> D i <> 0 -> 0 <= a i j r).
    { intros i p j r P R N G DN. destruct (INN i p P DN) as ((Gp & _ & _) & _). unfold a. rewrite P. destruct (p_type r =? DummyWall)%Z; [lra|].
      assert (0 < p_dens p) by now apply (DP i). assert (0 < euclid (p_pos p) (p_pos r)) by (apply euclid_pos; apply (AP i j p r P R); auto).
      unfold Rdiv. apply Rmult_le_pos; [apply Rmult_le_pos; [exact COE|now apply w_spec_nonneg]|left; now apply Rinv_0_lt_compat]. }
    assert (UP := max_principle ps D a kc KC AN EQ).
    assert (DOWN := max_principle ps (fun i => - D i) a kc KC).
    intros i p q P Q. assert (I : (i < List.length ps)%nat) by (apply nth_error_Some; congruence).
    destruct (H1 i p P) as (E1 & _). destruct (H2 _ q Q) as (E2 & _). rewrite E1, E2. f_equal.
    assert (D i <= 0) by now apply UP. assert (- D i <= 0).
    { apply DOWN; [| |exact I].
      - intros i0 p0 j r P0 R N G DN. apply (AN i0 p0 j r); auto. lra.
      - intros i0 p0 P0 DN. rewrite (sum_others_ext ps i0 _ (fun j r => - (a i0 j r * (D i0 - D j)))) by (intros; ring). rewrite sum_others_opp. assert (Z := EQ i0 p0 P0 ltac:(lra)). lra. }
    unfold D in *. lra.
Qed.
End Twin.
