(** * Neighbour search in IEEE binary64 *)
From Coq Require Import Reals Lra.
From Flocq Require Import Core.
From Verif Require Export NeighborFacts FloatFacts.
Open Scope R_scope.

Notation partF := (@particle F64).
Notation domF := (@domain F64).
Notation vecF := (@vec F64).

Definition nan (x : f64) : bool := is_nan x.

(** the domain as the loader computes it in doubles, with finite bounds *)
Definition proper_domainF (d : domF) : Prop :=
  fin (xMin d) = true /\ fin (xMax d) = true /\ fin (yMin d) = true /\ fin (yMax d) = true /\
  fin (zMin d) = true /\ fin (zMax d) = true /\
  nle (xMin d) (xMax d) = true /\ nle (yMin d) (yMax d) = true /\ nle (zMin d) (zMax d) = true /\
  xLength d = nsub (xMax d) (xMin d) /\ yLength d = nsub (yMax d) (yMin d) /\ zLength d = nsub (zMax d) (zMin d).

(** no coordinate is NaN (infinities are allowed) *)
Definition no_nan (x : vecF) : Prop := nan (vx x) = false /\ nan (vy x) = false /\ nan (vz x) = false.

(** a usable radius: finite and positive *)
Definition radiusF (re : f64) : Prop := fin re = true /\ nlt (nofZ 0) re = true.

Lemma radius_pos re : radiusF re -> 0 < F2r re.
Proof. intros [H1 H2]. apply Flt_fin in H2; auto. Qed.

Lemma to_int_F (x : f64) q : @to_int F64 x = Ok q -> fin x = true /\ q = Ztrunc (F2r x) /\ in_int q = true.
Proof.
  unfold to_int. cbn [ntrunc F64]. destruct (fin x); [|discriminate].
  destruct (in_int (Btrunc x)) eqn:I; [|discriminate]. intros H. inv H. rewrite Btrunc_Ztrunc in *. auto.
Qed.
Lemma to_int_F_ok (x : f64) : fin x = true -> in_int (Ztrunc (F2r x)) = true -> @to_int F64 x = Ok (Ztrunc (F2r x)).
Proof. intros H I. unfold to_int. cbn [ntrunc F64]. rewrite H, Btrunc_Ztrunc, I. reflexivity. Qed.

Lemma Zfloor_0_le x : 0 <= x -> (0 <= Zfloor x)%Z.
Proof. intros. replace 0%Z with (Zfloor 0) by (now rewrite Zfloor_IZR). now apply Zfloor_le. Qed.

(** the value of the quotient used for a cell coordinate *)
Definition qF (x lo re : f64) : R := rndF (rndF (F2r x - F2r lo) / F2r re).

Lemma cell1_F (x lo hi re : f64) q :
  radiusF re -> fin lo = true -> fin hi = true -> fin x = true -> F2r lo <= F2r x <= F2r hi ->
  @to_int F64 (ndiv (nsub hi lo) re) = Ok q -> (q + 3 <= int_max)%Z ->
  @cell1 F64 x lo re = Ok (Zfloor (qF x lo re) + 1)%Z /\ (0 <= Zfloor (qF x lo re) <= q)%Z.
Proof.
  intros Hr Hl Hh Hx Hb Hq Hm. pose proof (radius_pos _ Hr) as Rp.
  apply to_int_F in Hq. cbn [ndiv nsub F64] in Hq. destruct Hq as (Fq & Eq & Iq).
  destruct (Fdiv_inv (Bminus mode_NE hi lo) re ltac:(lra) Fq) as (V1 & Fl & B1).
  destruct (Fminus_inv hi lo Hh Hl Fl) as (V2 & B2).
  assert (M1 : 0 <= rndF (F2r x - F2r lo) <= rndF (F2r hi - F2r lo)).
  { split; [rewrite <- rndF_0|]; apply rndF_le; lra. }
  assert (Ux : F2r (Bminus mode_NE x lo) = rndF (F2r x - F2r lo) /\ fin (Bminus mode_NE x lo) = true).
  { apply Fminus; auto. rewrite Rabs_pos_eq by lra. rewrite Rabs_pos_eq in B2 by lra. lra. }
  destruct Ux as [Ux Fx].
  assert (Ip : 0 < / F2r re) by (now apply Rinv_0_lt_compat).
  assert (M2 : 0 <= qF x lo re <= rndF (rndF (F2r hi - F2r lo) / F2r re)).
  { unfold qF. split; [rewrite <- rndF_0 at 1|]; apply rndF_le; unfold Rdiv.
    - apply Rmult_le_pos; lra.
    - apply Rmult_le_compat_r; lra. }
  assert (Qx : F2r (Bdiv mode_NE (Bminus mode_NE x lo) re) = qF x lo re /\ fin (Bdiv mode_NE (Bminus mode_NE x lo) re) = true).
  { unfold qF. rewrite <- Ux. apply Fdiv; auto; [lra|]. rewrite Ux. fold (qF x lo re).
    rewrite V2 in B1. rewrite Rabs_pos_eq in * by lra. lra. }
  destruct Qx as [Qx FQ].
  assert (A : (0 <= Zfloor (qF x lo re))%Z) by (apply Zfloor_0_le; lra).
  assert (B : (Zfloor (qF x lo re) <= q)%Z).
  { rewrite Eq, V1, V2, Ztrunc_floor by lra. apply Zfloor_le. lra. }
  split; [|lia]. unfold cell1. cbn [ndiv nsub F64].
  unfold int_max in Hm.
  rewrite to_int_F_ok; auto.
  - rewrite Qx, Ztrunc_floor by lra. cbn [bind]. apply cint_ok, in_int_spec. unfold int_min, int_max; lia.
  - rewrite Qx, Ztrunc_floor by lra. apply in_int_spec. unfold int_min, int_max; lia.
Qed.

Lemma numbers_pos_F re d n ns : radiusF re -> proper_domainF d -> @grid_shape F64 re d n ns ->
  (3 <= b_numX (ns_bucket ns) /\ 3 <= b_numY (ns_bucket ns) /\ 3 <= b_numZ (ns_bucket ns))%Z.
Proof.
  intros Hre (F1 & F2 & F3 & F4 & F5 & F6 & Hx & Hy & Hz & Lx & Ly & Lz) G. destruct G.
  pose proof (radius_pos _ Hre) as Rp.
  assert (P : forall lo hi q, fin lo = true -> fin hi = true -> nle lo hi = true ->
     @to_int F64 (ndiv (nsub hi lo) re) = Ok q -> (0 <= q)%Z).
  { intros lo hi q Hl Hh Hle H. apply to_int_F in H. cbn [ndiv nsub F64] in H. destruct H as (Fq & -> & _).
    destruct (Fdiv_inv (Bminus mode_NE hi lo) re ltac:(lra) Fq) as (V1 & Fl & _).
    destruct (Fminus_inv hi lo Hh Hl Fl) as (V2 & _). apply Fle_fin in Hle; auto.
    assert (0 <= F2r (Bdiv mode_NE (Bminus mode_NE hi lo) re)).
    { rewrite V1, V2, <- rndF_0. apply rndF_le. unfold Rdiv. apply Rmult_le_pos.
      - rewrite <- rndF_0. apply rndF_le. lra.
      - left. now apply Rinv_0_lt_compat. }
    rewrite Ztrunc_floor by auto. now apply Zfloor_0_le. }
  destruct gs_x as (qx & X1 & ->), gs_y as (qy & Y1 & ->), gs_z as (qz & Z1 & ->).
  rewrite Lx in X1. rewrite Ly in Y1. rewrite Lz in Z1.
  apply P in X1; auto. apply P in Y1; auto. apply P in Z1; auto. lia.
Qed.

Lemma factor_boundF a b c : (3 <= a -> 3 <= b -> 3 <= c -> a * b * c <= int_max -> a <= int_max /\ b <= int_max /\ c <= int_max)%Z.
Proof. intros. assert (9 <= a * b)%Z by nia. assert (a <= a * b)%Z by nia. assert (b <= a * b)%Z by nia. nia. Qed.

Lemma in_domain_F d x : proper_domainF d -> no_nan x -> @isInDomain F64 d x = true ->
  (fin (vx x) = true /\ F2r (xMin d) <= F2r (vx x) <= F2r (xMax d)) /\
  (fin (vy x) = true /\ F2r (yMin d) <= F2r (vy x) <= F2r (yMax d)) /\
  (fin (vz x) = true /\ F2r (zMin d) <= F2r (vz x) <= F2r (zMax d)).
Proof.
  intros (F1 & F2 & F3 & F4 & F5 & F6 & _) (N1 & N2 & N3) H. unfold isInDomain in H.
  rewrite !andb_true_iff, !negb_true_iff, !orb_false_iff in H.
  destruct H as [[[A1 A2] [B1 B2]] [C1 C2]].
  assert (K : forall lo hi x, fin lo = true -> fin hi = true -> is_nan x = false -> @nlt F64 x lo = false -> @nlt F64 hi x = false ->
     fin x = true /\ F2r lo <= F2r x <= F2r hi).
  { intros lo hi y Hl Hh Hn H1 H2. pose proof (between_fin _ _ _ Hl Hh Hn H1 H2) as Fy. split; auto.
    apply Flt_fin_false in H1; auto. apply Flt_fin_false in H2; auto. }
  split; [|split]; apply K; auto.
Qed.

Definition cellF (d : domF) (re : f64) (x : vecF) : Z * Z * Z :=
  (Zfloor (qF (vx x) (xMin d) re) + 1, Zfloor (qF (vy x) (yMin d) re) + 1, Zfloor (qF (vz x) (zMin d) re) + 1)%Z.

Lemma cell_F re d n ns x : radiusF re -> proper_domainF d -> @grid_shape F64 re d n ns -> no_nan x -> @isInDomain F64 d x = true ->
  @cell F64 d re x = Ok (cellF d re x) /\
  inner_grid (b_numX (ns_bucket ns)) (b_numY (ns_bucket ns)) (b_numZ (ns_bucket ns)) (cellF d re x).
Proof.
  intros Hre PD G Nn Din. destruct (numbers_pos_F _ _ _ _ Hre PD G) as (P1 & P2 & P3).
  destruct (in_domain_F _ _ PD Nn Din) as ((Fx & Bx) & (Fy & By) & (Fz & Bz)).
  destruct G. rewrite gs_num in gs_int. destruct gs_int as [_ Gi].
  destruct (factor_boundF _ _ _ P1 P2 P3 Gi) as (M1 & M2 & M3).
  destruct gs_x as (qx & X1 & X2), gs_y as (qy & Y1 & Y2), gs_z as (qz & Z1 & Z2).
  destruct PD as (F1 & F2 & F3 & F4 & F5 & F6 & Hx & Hy & Hz & Lx & Ly & Lz).
  rewrite Lx in X1. rewrite Ly in Y1. rewrite Lz in Z1.
  rewrite X2 in *. rewrite Y2 in *. rewrite Z2 in *.
  destruct (cell1_F _ _ _ _ _ Hre F1 F2 Fx Bx X1 M1) as [C1 R1].
  destruct (cell1_F _ _ _ _ _ Hre F3 F4 Fy By Y1 M2) as [C2 R2].
  destruct (cell1_F _ _ _ _ _ Hre F5 F6 Fz Bz Z1 M3) as [C3 R3].
  unfold cell. rewrite C1. cbn [bind]. rewrite C2. cbn [bind]. rewrite C3. cbn [bind].
  split; [reflexivity|]. unfold inner_grid, cellF. lia.
Qed.

Lemma live_F_dom d (p : partF) : live d p = true -> isInDomain d (p_pos p) = true.
Proof. unfold live. rewrite andb_true_iff. tauto. Qed.

Lemma cells_ok_F re d ns ps : radiusF re -> proper_domainF d -> @grid_shape F64 re d (List.length ps) ns ->
  (forall p, In p ps -> p_type p <> Ghost -> no_nan (p_pos p)) ->
  @cells_ok F64 (ns_bucket ns) ps.
Proof.
  intros Hre PD G Nn p Hin L. pose proof G as G'. destruct G'. rewrite gs_bdom in *. rewrite gs_blen.
  eexists. eapply cell_F; eauto.
  - apply Nn; auto. apply live_not_ghost in L. unfold is_type in L. now apply Z.eqb_neq in L.
  - now apply live_F_dom.
Qed.

Lemma searcher_ok_F re d n ns : radiusF re -> proper_domainF d -> @grid_shape F64 re d n ns -> @searcher_ok F64 ns n.
Proof.
  intros Hre PD G. destruct (numbers_pos_F _ _ _ _ Hre PD G) as (? & ? & ?).
  eapply grid_shape_ok; eauto; lia.
Qed.

Lemma pdist_sym_F (p q : partF) : pdist p q = pdist q p.
Proof.
  unfold pdist, vnorm, vsqnorm, vdot, vsub. cbn [vx vy vz]. cbn [nsub nmul F64].
  rewrite (sq_minus_sym (vx (p_pos q))), (sq_minus_sym (vy (p_pos q))), (sq_minus_sym (vz (p_pos q))). reflexivity.
Qed.
