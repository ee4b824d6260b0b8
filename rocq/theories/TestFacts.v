(** * The neighbour test for all particles *)
From Coq Require Import Reals Lra.
From Flocq Require Import Core IEEE754.BinarySingleNaN.
From Verif Require Import NeighborMargin DensityF.
From Verif Require Export SpecTests.
Open Scope R_scope.
#[local] Remove Hints Rnum : typeclass_instances.

Lemma square_bounds (re : f64) : radiusF re -> b2 (-500) <= F2r re <= b2 500 ->
  fin (@nmul F64 re re) = true /\ F2r re * F2r re * (1 - / 4503599627370496) <= F2r (@nmul F64 re re) <= F2r re * F2r re * (1 + / 4503599627370496).
Proof.
  intros [Fr Hr] RB. pose proof (radius_pos re (conj Fr Hr)) as Rp. set (r := F2r re) in *.
  assert (S1 : r * r <= b2 1000). { replace (b2 1000) with (b2 500 * b2 500) by (rewrite <- bpow_plus; reflexivity). apply Rmult_le_compat; lra. }
  assert (S2 : b2 (-1000) <= r * r). { replace (b2 (-1000)) with (b2 (-500) * b2 (-500)) by (rewrite <- bpow_plus; reflexivity). pose proof (bpow_gt_0 radix2 (-500)). apply Rmult_le_compat; lra. }
  assert (P : 0 < r * r) by (apply Rmult_lt_0_compat; lra).
  assert (R1 : Rabs (rndF (r * r)) <= b2 1000) by (apply rnd_bounded; [lia|rewrite Rabs_pos_eq; lra]).
  destruct (Fmult re re Fr Fr) as [V F]; [eapply Rle_lt_trans; [exact R1|apply bpow_lt; lia]|]. change (@nmul F64 re re) with (Bmult mode_NE re re). split; [exact F|]. rewrite V. fold r.
  destruct (rnd_err (r * r)) as (e & h & He & Hh & E). rewrite E. apply Rabs_le_inv in He, Hh.
  assert (T : b2 (-1075) <= / 9007199254740992 * (r * r)).
  { apply Rle_trans with (b2 (-53) * b2 (-1000)); [rewrite <- bpow_plus; apply bpow_le; lia|]. apply Rmult_le_compat; try (left; apply bpow_gt_0); [simpl; lra|exact S2]. }
  assert (B : r * r * (1 - U) <= r * r * (1 + e) <= r * r * (1 + U)) by (split; apply Rmult_le_compat_l; lra). split; lra.
Qed.
Lemma sqnorm_finite (x y : vecF) : finite_vec x -> finite_vec y -> edistF x y <= b2 500 -> fin (@vsqnorm F64 (@vsub F64 x y)) = true.
Proof. intros A B C. pose proof (dist_finite x y A B C) as D. unfold vnorm in D. cbn [nsqrt F64] in D. apply Fsqrt_inv in D. apply D. Qed.
Lemma ediff_sq x y : edistF x y * edistF x y = ediff2 x y.
Proof. unfold edistF. apply sqrt_sqrt. repeat apply Rplus_le_le_0_compat; apply pow2_ge_0. Qed.
Lemma tiny (re : f64) : b2 (-500) <= F2r re -> 4 * b2 (-1075) <= / 1000000000 * (F2r re * F2r re).
Proof.
  intros H. apply Rle_trans with (b2 (-35) * b2 (-1000)).
  - replace 4 with (b2 2) by (simpl; lra). rewrite <- !bpow_plus. apply bpow_le. lia.
  - pose proof (bpow_gt_0 radix2 (-500)). apply Rmult_le_compat; try (left; apply bpow_gt_0); [simpl; lra|]. replace (b2 (-1000)) with (b2 (-500) * b2 (-500)) by (rewrite <- bpow_plus; reflexivity). apply Rmult_le_compat; lra.
Qed.
Lemma brute_close (re : f64) (x y : vecF) : radiusF re -> b2 (-500) <= F2r re <= b2 500 -> finite_vec x -> finite_vec y ->
  edistF x y <= (1 - / 524288) * F2r re -> @nlt F64 (@vsqnorm F64 (@vsub F64 x y)) (@nmul F64 re re) = true.
Proof.
  intros Hr RB Fx Fy HD. destruct (square_bounds re Hr RB) as (F2 & L & _). pose proof (radius_pos re Hr) as Rp. pose proof (tiny re (proj1 RB)) as T.
  assert (D0 : 0 <= edistF x y) by apply sqrt_pos. assert (F1 : fin (@vsqnorm F64 (@vsub F64 x y)) = true) by (apply sqnorm_finite; auto; lra).
  destruct (sqnorm_err x y F1) as (_ & _ & SU). rewrite <- ediff_sq in SU. apply Flt_fin; auto. set (D := edistF x y) in *. set (r := F2r re) in *.
  assert (DD : D * D <= ((1 - / 524288) * r) * ((1 - / 524288) * r)) by (apply Rmult_le_compat; lra). assert (P : 0 < r * r) by (apply Rmult_lt_0_compat; lra).
  replace (((1 - / 524288) * r) * ((1 - / 524288) * r)) with ((1 - / 524288) * (1 - / 524288) * (r * r)) in DD by ring. lra.
Qed.
Lemma brute_listed (re : f64) (x y : vecF) : radiusF re -> b2 (-500) <= F2r re <= b2 500 ->
  @nlt F64 (@vsqnorm F64 (@vsub F64 x y)) (@nmul F64 re re) = true -> edistF x y <= (1 + / 524288) * F2r re.
Proof.
  intros Hr RB HL. destruct (square_bounds re Hr RB) as (F2 & _ & L). pose proof (radius_pos re Hr) as Rp. pose proof (tiny re (proj1 RB)) as T.
  assert (F1 : fin (@vsqnorm F64 (@vsub F64 x y)) = true).
  { assert (G : good (@vsqnorm F64 (@vsub F64 x y))) by (apply good_add; [apply good_add|]; apply good_sq). destruct (@vsqnorm F64 (@vsub F64 x y)) as [s|s| |s m e B]; try reflexivity; exfalso.
    - destruct G as [G|G]; [discriminate|]. cbn in G. subst s. destruct (@nmul F64 re re) as [s'|s'| |s' m' e' B']; try discriminate F2; discriminate HL.
    - destruct (@nmul F64 re re); discriminate HL. }
  destruct (sqnorm_err x y F1) as (_ & SL & _). rewrite <- ediff_sq in SL. apply Flt_fin in HL; auto. assert (D0 : 0 <= edistF x y) by apply sqrt_pos.
  apply Rnot_lt_le. intros C. set (D := edistF x y) in *. set (r := F2r re) in *. assert (P : 0 < r * r) by (apply Rmult_lt_0_compat; lra).
  assert (DD : ((1 + / 524288) * r) * ((1 + / 524288) * r) <= D * D) by (apply Rmult_le_compat; try lra; apply Rmult_le_pos; lra).
  replace (((1 + / 524288) * r) * ((1 + / 524288) * r)) with ((1 + / 524288) * (1 + / 524288) * (r * r)) in DD by ring. lra.
Qed.
(** the search and the brute force of the test agree but for a band of relative width 2^-18 around re *)
Lemma neighbour_test re d ns (ps : list partF) : radiusF re -> b2 (-500) <= F2r re <= b2 500 -> proper_domainF d ->
  @used_searcher F64 re d (List.length ps) ns -> indexed ps -> numeric ps ->
  exists ns' ps', setNeighbors ns ps = Ok (ns', ps') /\
    forall i j p q, nth_error ps' i = Some p -> nth_error ps' j = Some q -> i <> j -> p_type p <> Ghost -> p_type q <> Ghost ->
      edistF (p_pos p) (p_pos q) <= (1 - / 524288) * F2r re \/ (1 + / 524288) * F2r re < edistF (p_pos p) (p_pos q) ->
      (In (Z.of_nat j) (map nb_id (p_nbrs p)) <-> brute_force re ps' i p (Z.of_nat j)).
Proof.
  intros Hr RB PD U I Nn. destruct (C07_lemma re d ns ps Hr RB PD U I Nn) as (ns' & ps' & E & H). exists ns', ps'. split; [exact E|]. intros i j p q Hp Hq D Gp Gq B.
  destruct (H i j p q Hp Hq D Gp Gq) as (H1 & H2).
  destruct (run_F _ _ _ _ Hr PD U I Nn) as (_ & _ & Er & Ed & ns2 & E2). pose proof (used_shape _ _ _ _ U) as G.
  assert (EQ : ps' = map (searched ns ps) ps) by congruence. subst ps'.
  destruct (searched_alive _ _ _ _ Hp Gp) as (p0 & Hp0 & Lp & Ep). destruct (searched_alive _ _ _ _ Hq Gq) as (q0 & Hq0 & Lq & Eq).
  assert (Fin : forall k a, nth_error ps k = Some a -> live (ns_domain ns) a = true -> p_type a <> Ghost -> finite_vec (p_pos a)).
  { intros k a Ha La Ga. rewrite Ed in La. apply live_F_dom in La. assert (Na : no_nan (p_pos a)) by (apply Nn; [eapply nth_error_In; eauto|exact Ga]).
    exact (proj1 (grid_quotients _ _ _ _ _ Hr PD G Na La)). }
  assert (Fp : finite_vec (p_pos p)) by (rewrite Ep; cbn [p_pos set_nbrs]; eapply Fin; eauto; rewrite Ep in Gp; exact Gp).
  assert (Fq : finite_vec (p_pos q)) by (rewrite Eq; cbn [p_pos set_nbrs]; eapply Fin; eauto; rewrite Eq in Gq; exact Gq).
  split.
  - intros L. apply H2 in L. exists j, q. split; [reflexivity|]. split; [exact Hq|]. split; [congruence|]. apply brute_close; auto. lra.
  - intros (k & q' & K & Hk & _ & L). apply Nat2Z.inj in K. subst k. assert (q' = q) by congruence. subst q'. apply H1. apply brute_listed in L; auto. lra.
Qed.
