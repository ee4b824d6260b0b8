(** * The neighbour search theorems, in the form in which PropNeighbor.v states them *)
From Coq Require Import Reals Lra.
From Flocq Require Import Core.
From Verif Require Export NeighborR NeighborMargin.
Open Scope R_scope.

(** a non-Ghost particle has no NaN coordinate *)
Definition numeric (ps : list partF) : Prop := forall p, In p ps -> p_type p <> Ghost -> no_nan (p_pos p).

(** ** exact arithmetic *)
Lemma run_R re d ns (ps : list partR) : 0 < re -> proper_domain d -> @used_searcher Rnum re d (List.length ps) ns -> indexed ps ->
  searcher_ok ns (List.length ps) /\ cells_ok (ns_bucket ns) ps /\ ns_re ns = re /\ ns_domain ns = d /\
  exists ns', setNeighbors ns ps = Ok (ns', map (searched ns ps) ps).
Proof.
  intros Hre PD U I. pose proof (used_shape _ _ _ _ U) as G.
  pose proof (searcher_ok_R _ _ _ _ Hre PD G) as SO. pose proof (cells_ok_R _ _ _ _ Hre PD G) as C.
  destruct (setNeighbors_run ns ps SO I C) as (ns' & E & _).
  pose proof G as G'. destruct G'. split; [exact SO|split; [exact C|split; [auto|split; [auto|exists ns'; auto]]]].
Qed.

Lemma C01_lemma re d ns (ps : list partR) :
  0 < re -> proper_domain d -> @used_searcher Rnum re d (List.length ps) ns -> indexed ps ->
  exists ns' ps', setNeighbors ns ps = Ok (ns', ps') /\
    forall i p, nth_error ps' i = Some p -> p_type p <> Ghost ->
    forall nb, In nb (p_nbrs p) <->
      exists j q, nth_error ps' j = Some q /\ j <> i /\ p_type q <> Ghost /\
        euclid (p_pos p) (p_pos q) < re /\ nb = @mkNb Rnum (Z.of_nat j) (euclid (p_pos p) (p_pos q)).
Proof.
  intros Hre PD U I. destruct (run_R _ _ _ _ Hre PD U I) as (SO & C & Er & Ed & ns' & E).
  exists ns', (map (searched ns ps) ps). split; auto. intros i p' Hp' NG nb.
  destruct (searched_alive _ _ _ _ Hp' NG) as (p & Hp & L & ->). cbn [p_nbrs set_nbrs p_pos].
  rewrite (nlist_in ns ps i p nb SO I C Hp L). rewrite Er, Ed in *. split.
  - intros (j & q & Hq & Lq & Hne & _ & Hd & ->). rewrite pdist_R in *. apply nlt_R in Hd.
    exists j, (set_nbrs q (nlist ns ps q)).
    rewrite <- Ed in Lq. pose proof (searched_of_live ns ps _ _ Hq Lq) as [K1 K2]. auto 10.
  - intros (j & q' & Hq' & Hne & NGq & Hd & ->).
    destruct (searched_alive _ _ _ _ Hq' NGq) as (q & Hq & Lq & ->). cbn [p_nbrs set_nbrs p_pos] in *.
    rewrite Ed in Lq. exists j, q. rewrite pdist_R, nlt_R. repeat split; auto.
    apply live_R in Lq, L. eapply near_R; eauto; [eapply used_shape; eauto|apply L|apply Lq].
Qed.

Lemma pdist_sym_R (p q : partR) : pdist p q = pdist q p.
Proof. rewrite !pdist_R. apply euclid_sym. Qed.

Lemma C02_lemma_R re d ns (ps : list partR) :
  0 < re -> proper_domain d -> @used_searcher Rnum re d (List.length ps) ns -> indexed ps ->
  exists ns' ps', setNeighbors ns ps = Ok (ns', ps') /\
    forall i p, nth_error ps' i = Some p -> p_type p <> Ghost ->
      NoDup (map nb_id (p_nbrs p)) /\
      forall nb, In nb (p_nbrs p) -> exists j q, nb_id nb = Z.of_nat j /\ j <> i /\ nth_error ps' j = Some q /\ p_type q <> Ghost.
Proof.
  intros Hre PD U I. destruct (run_R _ _ _ _ Hre PD U I) as (SO & C & Er & Ed & ns' & E).
  exists ns', (map (searched ns ps) ps). split; auto. intros i p' Hp' NG.
  destruct (result_lists ns ps SO I C i p' Hp' NG) as [ND H]. split; auto.
  intros nb Hnb. destruct (H nb Hnb) as (j & q & ? & ? & ? & ? & _). eauto 6.
Qed.

Lemma C03_lemma_R re d ns (ps : list partR) :
  0 < re -> proper_domain d -> @used_searcher Rnum re d (List.length ps) ns -> indexed ps ->
  exists ns' ps', setNeighbors ns ps = Ok (ns', ps') /\
    forall i j p q dist, nth_error ps' i = Some p -> p_type p <> Ghost -> nth_error ps' j = Some q ->
      In (mkNb (Z.of_nat j) dist) (p_nbrs p) -> In (mkNb (Z.of_nat i) dist) (p_nbrs q).
Proof.
  intros Hre PD U I. destruct (run_R _ _ _ _ Hre PD U I) as (SO & C & Er & Ed & ns' & E).
  exists ns', (map (searched ns ps) ps). split; auto. intros i j p q dist.
  apply (result_symmetric ns ps SO I C pdist_sym_R).
Qed.

Lemma to_int_R (x : R) : 0 <= x -> x < 2147483647 -> @to_int Rnum x = Ok (Zfloor x).
Proof.
  intros. unfold to_int. cbn [ntrunc Rnum]. rewrite Ztrunc_floor by lra.
  rewrite (proj2 (in_int_spec _)); auto. unfold int_min, int_max.
  assert (Zfloor 0 <= Zfloor x)%Z by (apply Zfloor_le; lra). rewrite Zfloor_IZR in *.
  assert (Zfloor x <= 2147483647)%Z. { apply le_IZR. pose proof (Zfloor_lb x). lra. } lia.
Qed.

Lemma mul_pos_bound a b c : (3 <= a -> 3 <= b -> 3 <= c -> a * b * c <= int_max -> a <= int_max /\ b <= int_max /\ c <= int_max /\ 0 <= a * b <= int_max /\ 0 <= a * b * c)%Z.
Proof. intros. assert (9 <= a * b)%Z by nia. assert (a <= a * b)%Z by nia. assert (b <= a * b)%Z by nia. repeat split; nia. Qed.

(** the constructor succeeds when the grid fits into an int *)
Lemma newSearcher_total {N : Num} re d n qx qy qz :
  to_int (ndiv (xLength d) re) = Ok qx -> to_int (ndiv (yLength d) re) = Ok qy -> to_int (ndiv (zLength d) re) = Ok qz ->
  (0 <= qx -> 0 <= qy -> 0 <= qz -> (qx + 3) * (qy + 3) * (qz + 3) <= int_max)%Z -> (0 <= qx)%Z -> (0 <= qy)%Z -> (0 <= qz)%Z ->
  exists ns, newSearcher re d n = Ok ns.
Proof.
  intros Hx Hy Hz HM Px Py Pz. specialize (HM Px Py Pz).
  destruct (mul_pos_bound (qx + 3) (qy + 3) (qz + 3)) as (B1 & B2 & B3 & B4 & B5); try lia.
  unfold newSearcher, newBucket, grid_count. rewrite Hx, Hy, Hz. cbn [bind].
  unfold int_max in *.
  rewrite !cint_ok by (apply in_int_spec; unfold int_min, int_max; lia). cbn [bind].
  rewrite !cint_ok by (apply in_int_spec; unfold int_min, int_max; lia). cbn [bind].
  rewrite !cint_ok by (apply in_int_spec; unfold int_min, int_max; lia). cbn [bind].
  destruct (Z.ltb_spec ((qx + 3) * (qy + 3) * (qz + 3)) 0); [lia|]. simpl. eauto.
Qed.

Lemma C04_lemma_R re d n :
  0 < re -> proper_domain d ->
  ((Zfloor (xLength d / re) + 3) * (Zfloor (yLength d / re) + 3) * (Zfloor (zLength d / re) + 3) <= int_max)%Z ->
  (exists ns, @newSearcher Rnum re d n = Ok ns) /\
  forall ns (ps : list partR), @used_searcher Rnum re d n ns -> List.length ps = n -> indexed ps ->
    exists ns' ps', setNeighbors ns ps = Ok (ns', ps').
Proof.
  intros Hre PD HM. split.
  - destruct PD as (Hx & Hy & Hz & Lx & Ly & Lz).
    assert (P : forall l, 0 <= l -> 0 <= l / re) by (intros; apply Rdiv_nonneg; lra).
    pose proof (P (xLength d) ltac:(lra)) as P1. pose proof (P (yLength d) ltac:(lra)) as P2. pose proof (P (zLength d) ltac:(lra)) as P3.
    assert (F : forall x, 0 <= x -> (0 <= Zfloor x)%Z).
    { intros. replace 0%Z with (Zfloor 0) by (now rewrite Zfloor_IZR). now apply Zfloor_le. }
    pose proof (F _ P1) as F1. pose proof (F _ P2) as F2. pose proof (F _ P3) as F3.
    destruct (mul_pos_bound (Zfloor (xLength d / re) + 3) (Zfloor (yLength d / re) + 3) (Zfloor (zLength d / re) + 3)) as (B1 & B2 & B3 & _); try lia.
    assert (G : forall x, (Zfloor x + 3 <= int_max)%Z -> x < 2147483647).
    { intros x Hx'. pose proof (Zfloor_ub x). unfold int_max in Hx'. apply IZR_le in Hx'. rewrite plus_IZR in Hx'. lra. }
    apply newSearcher_total with (Zfloor (xLength d / re)) (Zfloor (yLength d / re)) (Zfloor (zLength d / re)); auto; apply to_int_R; auto.
  - intros ns ps U <- I. destruct (run_R _ _ _ _ Hre PD U I) as (_ & _ & _ & _ & ns' & E). eauto.
Qed.

(** ** IEEE binary64 *)
Lemma run_F re d ns (ps : list partF) : radiusF re -> proper_domainF d -> @used_searcher F64 re d (List.length ps) ns -> indexed ps -> numeric ps ->
  searcher_ok ns (List.length ps) /\ cells_ok (ns_bucket ns) ps /\ ns_re ns = re /\ ns_domain ns = d /\
  exists ns', setNeighbors ns ps = Ok (ns', map (searched ns ps) ps).
Proof.
  intros Hre PD U I Nn. pose proof (used_shape _ _ _ _ U) as G.
  pose proof (searcher_ok_F _ _ _ _ Hre PD G) as SO. pose proof (cells_ok_F _ _ _ _ Hre PD G Nn) as C.
  destruct (setNeighbors_run ns ps SO I C) as (ns' & E & _).
  pose proof G as G'. destruct G'. split; [exact SO|split; [exact C|split; [auto|split; [auto|exists ns'; auto]]]].
Qed.

Lemma C02_lemma_F re d ns (ps : list partF) :
  radiusF re -> proper_domainF d -> @used_searcher F64 re d (List.length ps) ns -> indexed ps -> numeric ps ->
  exists ns' ps', setNeighbors ns ps = Ok (ns', ps') /\
    forall i p, nth_error ps' i = Some p -> p_type p <> Ghost ->
      NoDup (map nb_id (p_nbrs p)) /\
      forall nb, In nb (p_nbrs p) -> exists j q, nb_id nb = Z.of_nat j /\ j <> i /\ nth_error ps' j = Some q /\ p_type q <> Ghost.
Proof.
  intros Hre PD U I Nn. destruct (run_F _ _ _ _ Hre PD U I Nn) as (SO & C & Er & Ed & ns' & E).
  exists ns', (map (searched ns ps) ps). split; auto. intros i p' Hp' NG.
  destruct (result_lists ns ps SO I C i p' Hp' NG) as [ND H]. split; auto.
  intros nb Hnb. destruct (H nb Hnb) as (j & q & ? & ? & ? & ? & _). eauto 6.
Qed.

Lemma C03_lemma_F re d ns (ps : list partF) :
  radiusF re -> proper_domainF d -> @used_searcher F64 re d (List.length ps) ns -> indexed ps -> numeric ps ->
  exists ns' ps', setNeighbors ns ps = Ok (ns', ps') /\
    forall i j p q dist, nth_error ps' i = Some p -> p_type p <> Ghost -> nth_error ps' j = Some q ->
      In (mkNb (Z.of_nat j) dist) (p_nbrs p) -> In (mkNb (Z.of_nat i) dist) (p_nbrs q).
Proof.
  intros Hre PD U I Nn. destruct (run_F _ _ _ _ Hre PD U I Nn) as (SO & C & Er & Ed & ns' & E).
  exists ns', (map (searched ns ps) ps). split; auto. intros i j p q dist.
  apply (result_symmetric ns ps SO I C pdist_sym_F).
Qed.

Lemma C04_lemma_F (re : f64) (d : domF) n :
  radiusF re -> proper_domainF d ->
  fin (@ndiv F64 (xLength d) re) = true -> fin (@ndiv F64 (yLength d) re) = true -> fin (@ndiv F64 (zLength d) re) = true ->
  ((Zfloor (F2r (@ndiv F64 (xLength d) re)) + 3) * (Zfloor (F2r (@ndiv F64 (yLength d) re)) + 3) * (Zfloor (F2r (@ndiv F64 (zLength d) re)) + 3) <= int_max)%Z ->
  (exists ns, @newSearcher F64 re d n = Ok ns) /\
  forall ns (ps : list partF), @used_searcher F64 re d n ns -> List.length ps = n -> indexed ps -> numeric ps ->
    exists ns' ps', setNeighbors ns ps = Ok (ns', ps').
Proof.
  intros Hre PD Fx Fy Fz HM. split.
  - pose proof (radius_pos _ Hre) as Rp. destruct PD as (F1 & F2 & F3 & F4 & F5 & F6 & Hx & Hy & Hz & Lx & Ly & Lz).
    assert (P : forall lo hi : f64, fin lo = true -> fin hi = true -> nle lo hi = true -> fin (@ndiv F64 (nsub hi lo) re) = true ->
       0 <= F2r (@ndiv F64 (nsub hi lo) re)).
    { intros lo hi Hl Hh Hle H. cbn [ndiv nsub F64] in *.
      destruct (Fdiv_inv (Bminus mode_NE hi lo) re ltac:(lra) H) as (V1 & Fl & _).
      destruct (Fminus_inv hi lo Hh Hl Fl) as (V2 & _). apply Fle_fin in Hle; auto.
      rewrite V1, V2, <- rndF_0. apply rndF_le. unfold Rdiv. apply Rmult_le_pos.
      - rewrite <- rndF_0. apply rndF_le. lra.
      - left. now apply Rinv_0_lt_compat. }
    rewrite Lx, Ly, Lz in *.
    pose proof (P _ _ F1 F2 Hx Fx) as P1. pose proof (P _ _ F3 F4 Hy Fy) as P2. pose proof (P _ _ F5 F6 Hz Fz) as P3.
    pose proof (Zfloor_0_le _ P1) as Q1. pose proof (Zfloor_0_le _ P2) as Q2. pose proof (Zfloor_0_le _ P3) as Q3.
    destruct (mul_pos_bound _ _ _ (proj1 (Z.add_le_mono_r 0 _ 3) Q1) (proj1 (Z.add_le_mono_r 0 _ 3) Q2) (proj1 (Z.add_le_mono_r 0 _ 3) Q3) HM) as (B1 & B2 & B3 & _).
    assert (T : forall x : f64, fin x = true -> 0 <= F2r x -> (Zfloor (F2r x) + 3 <= int_max)%Z -> @to_int F64 x = Ok (Zfloor (F2r x))).
    { intros x Hf Hp Hm. rewrite <- Ztrunc_floor by auto. apply to_int_F_ok; auto. rewrite Ztrunc_floor by auto.
      pose proof (Zfloor_0_le _ Hp). apply in_int_spec. unfold int_min, int_max in *. lia. }
    eapply newSearcher_total; rewrite ?Lx, ?Ly, ?Lz; [apply T; eauto|apply T; eauto|apply T; eauto|auto|auto|auto|auto].
  - intros ns ps U <- I Nn. destruct (run_F _ _ _ _ Hre PD U I Nn) as (_ & _ & _ & _ & ns' & E). eauto.
Qed.

Lemma C07_lemma re d ns (ps : list partF) :
  radiusF re -> b2 (-500) <= F2r re <= b2 500 -> proper_domainF d ->
  @used_searcher F64 re d (List.length ps) ns -> indexed ps -> numeric ps ->
  exists ns' ps', setNeighbors ns ps = Ok (ns', ps') /\
    forall i j p q, nth_error ps' i = Some p -> nth_error ps' j = Some q -> i <> j ->
      p_type p <> Ghost -> p_type q <> Ghost ->
      (edistF (p_pos p) (p_pos q) <= (1 - / 524288) * F2r re -> In (Z.of_nat j) (map nb_id (p_nbrs p))) /\
      (In (Z.of_nat j) (map nb_id (p_nbrs p)) -> edistF (p_pos p) (p_pos q) <= (1 + / 524288) * F2r re).
Proof.
  intros Hre RB PD U I Nn. destruct (run_F _ _ _ _ Hre PD U I Nn) as (SO & C & Er & Ed & ns' & E).
  exists ns', (map (searched ns ps) ps). split; auto. intros i j p' q' Hp' Hq' Hne NGp NGq.
  destruct (searched_alive _ _ _ _ Hp' NGp) as (p & Hp & Lp & ->).
  destruct (searched_alive _ _ _ _ Hq' NGq) as (q & Hq & Lq & ->). cbn [p_nbrs set_nbrs p_pos].
  pose proof (used_shape _ _ _ _ U) as G.
  assert (Np : no_nan (p_pos p)). { apply Nn; [eapply nth_error_In; eauto|]. exact NGp. }
  assert (Nq : no_nan (p_pos q)). { apply Nn; [eapply nth_error_In; eauto|]. exact NGq. }
  rewrite Ed in Lp, Lq. pose proof (live_F_dom _ _ Lp) as Dp. pose proof (live_F_dom _ _ Lq) as Dq. rewrite <- Ed in Lp, Lq.
  destruct (grid_quotients _ _ _ _ _ Hre PD G Np Dp) as (Fp & _). destruct (grid_quotients _ _ _ _ _ Hre PD G Nq Dq) as (Fq & _).
  split.
  - intros HD. apply in_map_iff. exists (mkNb (Z.of_nat j) (pdist p q)). split; auto.
    apply (nlist_in ns ps i p _ SO I C Hp Lp). exists j, q. rewrite Er, Ed in *. repeat split; auto.
    + eapply near_F; eauto.
    + apply computed_close; auto.
  - intros Hin. apply in_map_iff in Hin. destruct Hin as (nb & Ej & Hin).
    apply (nlist_in ns ps i p nb SO I C Hp Lp) in Hin. destruct Hin as (j' & q2 & Hq2 & _ & _ & _ & Hd & ->).
    cbn [nb_id] in Ej. apply Nat2Z.inj in Ej. subst j'. assert (q2 = q) by congruence. subst q2. rewrite Er in Hd.
    apply listed_close; auto; [lra|]. unfold pdist in *. eapply vnorm_not_neginf; [exact Hd|apply Hre].
Qed.

(** ** NaN *)
Lemma C46_lemma (re : f64) d ns (ps : list partF) p ns' ps' :
  @used_searcher F64 re d (List.length ps) ns -> In p ps -> p_type p <> Ghost ->
  ~ no_nan (p_pos p) -> ~ outside d (p_pos p) -> setNeighbors ns ps <> Ok (ns', ps').
Proof.
  intros U Hin NG Nn No H. pose proof (used_shape _ _ _ _ U) as G. destruct G.
  unfold setNeighbors in H. binds H. destruct r as [b ps1]. apply store_particles in E. destruct E as [_ E].
  rewrite gs_bdom, gs_blen in E. destruct (E p Hin) as (c & Hc).
  { unfold live. apply andb_true_iff. split; [apply negb_true_iff; unfold is_type; now apply Z.eqb_neq|]. now apply inDomain_outside. }
  apply Nn. unfold cell in Hc. binds Hc. binds Hc. binds Hc.
  assert (K : forall x lo r, @cell1 F64 x lo re = Ok r -> nan x = false).
  { intros x lo r' Hr. unfold cell1 in Hr. binds Hr. apply to_int_F in E3. destruct E3 as [F _].
    destruct x; auto. }
  split; [|split]; eapply K; eauto.
Qed.
