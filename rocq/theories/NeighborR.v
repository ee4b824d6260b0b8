(** * Neighbour search in exact arithmetic *)
From Verif Require Export NeighborFacts SpecR.
Open Scope R_scope.

Lemma Rdiv_nonneg a b : 0 <= a -> 0 < b -> 0 <= a / b.
Proof. intros. unfold Rdiv. apply Rmult_le_pos; auto. left. now apply Rinv_0_lt_compat. Qed.

Lemma nlt_R (a b : R) : @nlt Rnum a b = true <-> a < b.
Proof. simpl. destruct (Rlt_bool_spec a b); split; intros; auto; try discriminate; lra. Qed.
Lemma nlt_R_false (a b : R) : @nlt Rnum a b = false <-> b <= a.
Proof. simpl. destruct (Rlt_bool_spec a b); split; intros; auto; try discriminate; lra. Qed.

Lemma isInDomain_R (d : domR) x : @isInDomain Rnum d x = true <-> in_box d x.
Proof.
  unfold isInDomain, in_box. rewrite !andb_true_iff, !negb_true_iff, !orb_false_iff, !nlt_R_false. tauto.
Qed.

Lemma live_R (d : domR) p : @live Rnum d p = true <-> active d p.
Proof.
  unfold live, active, is_type. rewrite andb_true_iff, negb_true_iff, isInDomain_R, Z.eqb_neq. tauto.
Qed.

Lemma pdist_R (p q : partR) : @pdist Rnum p q = euclid (p_pos p) (p_pos q).
Proof.
  unfold pdist, euclid, vnorm, vsqnorm, vdot, vsub. simpl. f_equal. ring.
Qed.

Lemma euclid_sym x y : euclid x y = euclid y x.
Proof. unfold euclid. f_equal. ring. Qed.

Lemma euclid_axis x y : Rabs (vx x - vx y) <= euclid x y /\ Rabs (vy x - vy y) <= euclid x y /\ Rabs (vz x - vz y) <= euclid x y.
Proof.
  unfold euclid. rewrite <- !sqrt_Rsqr_abs. unfold Rsqr.
  pose proof (pow2_ge_0 (vx x - vx y)). pose proof (pow2_ge_0 (vy x - vy y)). pose proof (pow2_ge_0 (vz x - vz y)).
  repeat split; apply sqrt_le_1_alt; simpl in *; lra.
Qed.

Lemma cell1_R (x lo hi re : R) q :
  0 < re -> lo <= x <= hi -> @to_int Rnum ((hi - lo) / re) = Ok q -> (q + 3 <= int_max)%Z ->
  @cell1 Rnum x lo re = Ok (Zfloor ((x - lo) / re) + 1)%Z /\ (0 <= Zfloor ((x - lo) / re) <= q)%Z.
Proof.
  intros Hre Hx Hq Hm.
  assert (A : 0 <= (x - lo) / re <= (hi - lo) / re).
  { split.
    - apply Rdiv_nonneg; lra.
    - unfold Rdiv. apply Rmult_le_compat_r; [|lra]. left. now apply Rinv_0_lt_compat. }
  unfold to_int in Hq. cbn [ntrunc Rnum] in Hq.
  rewrite Ztrunc_floor in Hq by lra.
  destruct (in_int _) eqn:I in Hq; [|discriminate]. inv Hq.
  assert (B : (0 <= Zfloor ((x - lo) / re))%Z).
  { replace 0%Z with (Zfloor 0) by (now rewrite Zfloor_IZR). apply Zfloor_le. lra. }
  assert (C : (Zfloor ((x - lo) / re) <= Zfloor ((hi - lo) / re))%Z) by (apply Zfloor_le; lra).
  unfold int_max in Hm.
  split; [|lia]. unfold cell1, to_int. cbn [ntrunc Rnum nsub ndiv].
  rewrite Ztrunc_floor by lra.
  rewrite (proj2 (in_int_spec _)) by (unfold int_min, int_max; lia). cbn [bind].
  apply cint_ok, in_int_spec. unfold int_min, int_max; lia.
Qed.

Lemma numbers_pos re d n ns : 0 < re -> proper_domain d -> @grid_shape Rnum re d n ns ->
  (3 <= b_numX (ns_bucket ns) /\ 3 <= b_numY (ns_bucket ns) /\ 3 <= b_numZ (ns_bucket ns))%Z.
Proof.
  intros Hre (Hx & Hy & Hz & Lx & Ly & Lz) G. destruct G.
  assert (P : forall l q, 0 <= l -> @to_int Rnum (l / re) = Ok q -> (0 <= q)%Z).
  { intros l q Hl H. unfold to_int in H. cbn [ntrunc Rnum] in H.
    assert (0 <= l / re) by (apply Rdiv_nonneg; lra).
    rewrite Ztrunc_floor in H by lra. destruct (in_int _) in H; [|discriminate]. inv H.
    replace 0%Z with (Zfloor 0) by (now rewrite Zfloor_IZR). apply Zfloor_le. lra. }
  destruct gs_x as (qx & X1 & ->), gs_y as (qy & Y1 & ->), gs_z as (qz & Z1 & ->).
  apply P in X1; [|lra]. apply P in Y1; [|lra]. apply P in Z1; [|lra]. lia.
Qed.

Lemma factor_bound a b c : (3 <= a -> 3 <= b -> 3 <= c -> a * b * c <= int_max -> a <= int_max /\ b <= int_max /\ c <= int_max)%Z.
Proof. intros. assert (9 <= a * b)%Z by nia. assert (a <= a * b)%Z by nia. assert (b <= a * b)%Z by nia. nia. Qed.

Lemma cell_R re d n ns x : 0 < re -> proper_domain d -> @grid_shape Rnum re d n ns -> in_box d x ->
  @cell Rnum d re x = Ok (Zfloor ((vx x - xMin d) / re) + 1, Zfloor ((vy x - yMin d) / re) + 1, Zfloor ((vz x - zMin d) / re) + 1)%Z /\
  inner_grid (b_numX (ns_bucket ns)) (b_numY (ns_bucket ns)) (b_numZ (ns_bucket ns))
    (Zfloor ((vx x - xMin d) / re) + 1, Zfloor ((vy x - yMin d) / re) + 1, Zfloor ((vz x - zMin d) / re) + 1)%Z.
Proof.
  intros Hre PD G (Bx & By & Bz). destruct (numbers_pos _ _ _ _ Hre PD G) as (P1 & P2 & P3).
  destruct G. rewrite gs_num in gs_int. destruct gs_int as [_ Gi].
  destruct (factor_bound _ _ _ P1 P2 P3 Gi) as (F1 & F2 & F3).
  destruct gs_x as (qx & X1 & X2), gs_y as (qy & Y1 & Y2), gs_z as (qz & Z1 & Z2).
  destruct PD as (Hx & Hy & Hz & Lx & Ly & Lz). rewrite Lx in X1. rewrite Ly in Y1. rewrite Lz in Z1.
  rewrite X2 in *. rewrite Y2 in *. rewrite Z2 in *.
  destruct (cell1_R _ _ _ _ _ Hre Bx X1 F1) as [C1 R1].
  destruct (cell1_R _ _ _ _ _ Hre By Y1 F2) as [C2 R2].
  destruct (cell1_R _ _ _ _ _ Hre Bz Z1 F3) as [C3 R3].
  unfold cell. rewrite C1. cbn [bind]. rewrite C2. cbn [bind]. rewrite C3. cbn [bind].
  split; [reflexivity|]. unfold inner_grid. lia.
Qed.

Lemma cells_ok_R re d ns ps : 0 < re -> proper_domain d -> @grid_shape Rnum re d (List.length ps) ns ->
  @cells_ok Rnum (ns_bucket ns) ps.
Proof.
  intros Hre PD G p Hin L. pose proof G as G'. destruct G'. rewrite gs_bdom in L. apply live_R in L.
  rewrite gs_bdom, gs_blen. eexists. eapply cell_R; eauto. apply L.
Qed.

Lemma searcher_ok_R re d n ns : 0 < re -> proper_domain d -> @grid_shape Rnum re d n ns -> @searcher_ok Rnum ns n.
Proof.
  intros Hre PD G. destruct (numbers_pos _ _ _ _ Hre PD G) as (? & ? & ?).
  eapply grid_shape_ok; eauto; lia.
Qed.

Lemma Zfloor_near a b : Rabs (a - b) < 1 -> (Zfloor a - 1 <= Zfloor b <= Zfloor a + 1)%Z.
Proof.
  intros H. apply Rabs_def2 in H. destruct H.
  split.
  - assert (Zfloor (a - 1) <= Zfloor b)%Z by (apply Zfloor_le; lra).
    assert (E : Zfloor (a - 1) = (Zfloor a - 1)%Z).
    { apply Zfloor_imp. rewrite plus_IZR, minus_IZR. pose proof (Zfloor_lb a). pose proof (Zfloor_ub a). lra. }
    lia.
  - assert (Zfloor b <= Zfloor (a + 1))%Z by (apply Zfloor_le; lra).
    assert (E : Zfloor (a + 1) = (Zfloor a + 1)%Z).
    { apply Zfloor_imp. rewrite !plus_IZR. pose proof (Zfloor_lb a). pose proof (Zfloor_ub a). lra. }
    lia.
Qed.

Lemma around_spec ix iy iz jx jy jz :
  In (jx, jy, jz) (around (ix, iy, iz)) <-> (ix - 1 <= jx <= ix + 1 /\ iy - 1 <= jy <= iy + 1 /\ iz - 1 <= jz <= iz + 1)%Z.
Proof.
  unfold around, three. rewrite in_flat_map. split.
  - intros (a & Ha & H). apply in_flat_map in H. destruct H as (b & Hb & H). apply in_map_iff in H.
    destruct H as (c & E & Hc). inv E. simpl in *. lia.
  - intros (Hx & Hy & Hz). exists jx. split; [simpl; lia|]. apply in_flat_map. exists jy. split; [simpl; lia|].
    apply in_map_iff. exists jz. split; auto. simpl; lia.
Qed.

Lemma near_R re d n ns p q : 0 < re -> proper_domain d -> @grid_shape Rnum re d n ns ->
  in_box d (p_pos p) -> in_box d (p_pos q) -> euclid (p_pos p) (p_pos q) < re ->
  @near_cells Rnum d re p q.
Proof.
  intros Hre PD G Bp Bq Hd.
  destruct (cell_R _ _ _ _ _ Hre PD G Bp) as [Cp _]. destruct (cell_R _ _ _ _ _ Hre PD G Bq) as [Cq _].
  eexists _, _. split; [exact Cp|]. split; [exact Cq|]. apply around_spec.
  destruct (euclid_axis (p_pos p) (p_pos q)) as (A1 & A2 & A3).
  assert (K : forall a b lo, Rabs (a - b) < re -> Rabs ((a - lo) / re - (b - lo) / re) < 1).
  { intros a b lo H. replace ((a - lo) / re - (b - lo) / re) with ((a - b) / re) by (field; lra).
    unfold Rdiv. rewrite Rabs_mult, (Rabs_pos_eq (/ re)).
    - apply Rmult_lt_reg_r with re; auto. rewrite Rmult_assoc, Rinv_l; lra.
    - left. now apply Rinv_0_lt_compat. }
  repeat split; match goal with |- context [Zfloor ((?b - ?lo) / re)] => idtac end.
  all: pose proof (Zfloor_near _ _ (K (vx (p_pos p)) (vx (p_pos q)) (xMin d) ltac:(lra)));
       pose proof (Zfloor_near _ _ (K (vy (p_pos p)) (vy (p_pos q)) (yMin d) ltac:(lra)));
       pose proof (Zfloor_near _ _ (K (vz (p_pos p)) (vz (p_pos q)) (zMin d) ltac:(lra))); lia.
Qed.

(** the complete result of one neighbour search in exact arithmetic *)
Theorem search_R re d ns (ps : list partR) :
  0 < re -> proper_domain d -> used_searcher re d (List.length ps) ns -> indexed ps ->
  exists ns' ps', setNeighbors ns ps = Ok (ns', ps') /\ used_searcher re d (List.length ps) ns' /\
    List.length ps' = List.length ps /\
    forall i p, nth_error ps i = Some p ->
      exists p', nth_error ps' i = Some p' /\
        (active d p -> exists l, p' = set_nbrs p l /\ NoDup (map nb_id l) /\
           forall nb, In nb l <-> exists j q, nth_error ps j = Some q /\ j <> i /\ active d q /\
                        euclid (p_pos p) (p_pos q) < re /\ nb = mkNb (Z.of_nat j) (euclid (p_pos p) (p_pos q))) /\
        (~ active d p -> p' = set_type p Ghost).
Proof.
  intros Hre PD SS I. pose proof (used_shape _ _ _ _ SS) as G.
  pose proof (searcher_ok_R _ _ _ _ Hre PD G) as SO. pose proof (cells_ok_R _ _ _ _ Hre PD G) as C.
  destruct (setNeighbors_run ns ps SO I C) as (ns' & E & _).
  exists ns', (map (searched ns ps) ps). split; [exact E|]. split; [eapply used_call; eauto|].
  split; [apply map_length|].
  intros i p Hp. exists (searched ns ps p). rewrite nth_error_map, Hp. split; [reflexivity|].
  pose proof G as G'. destruct G'. unfold searched. rewrite gs_dom. split.
  - intros A. apply live_R in A. rewrite A. exists (nlist ns ps p). split; auto. split.
    + apply nlist_NoDup; auto. eapply nth_error_In; eauto. now rewrite gs_dom.
    + intros nb. rewrite nlist_in; eauto; [|now rewrite gs_dom]. rewrite gs_dom, gs_re. split.
      * intros (j & q & Hq & Lq & Hne & _ & Hd & ->). rewrite pdist_R in *. apply nlt_R in Hd.
        exists j, q. rewrite <- live_R. auto.
      * intros (j & q & Hq & Hne & Aq & Hd & ->). exists j, q. rewrite pdist_R, nlt_R. repeat split; auto.
        -- now apply live_R.
        -- apply live_R in A. eapply near_R; eauto; [apply A|apply Aq].
  - intros NA. destruct (live d p) eqn:L; [apply live_R in L; contradiction|].
    unfold ghostify. unfold live in L. destruct (is_type p Ghost) eqn:T.
    + unfold is_type in T. apply Z.eqb_eq in T. destruct p; simpl in *; subst; reflexivity.
    + simpl in L. now rewrite L.
Qed.
