(** * Coordinates that are not numbers (C86) *)
From Coq Require Import Reals Psatz.
From Flocq Require Import Core BinarySingleNaN.
From Verif Require Import NeighborF NeighborProps NeighborThms SafetyFacts StepFacts TotalR SpecEnds.
Open Scope list_scope.
Open Scope Z_scope.
#[local] Remove Hints Rnum : typeclass_instances.

(** ** One cell *)
Lemma nan_cast (x lo re : f64) : nan x = true -> @cell1 F64 x lo re = Undef BadCast.
Proof. intros H. destruct x; try discriminate. unfold cell1, to_int. cbn [nsub ndiv ntrunc F64]. destruct lo, re; reflexivity. Qed.
Lemma trapped_dec d p : trapped d p \/ ~ trapped d p.
Proof. apply Classical_Prop.classic. Qed.
Lemma no_nan_dec (x : vecF) : no_nan x \/ ~ no_nan x.
Proof. unfold no_nan. destruct (nan (vx x)), (nan (vy x)), (nan (vz x)); auto; right; intros (A & B & C); discriminate. Qed.
Lemma cell_trapped re d n ns p : radiusF re -> proper_domainF d -> @grid_shape F64 re d n ns -> trapped d p -> @cell F64 d re (p_pos p) = Undef BadCast.
Proof.
  intros Hre PD G (T1 & T2 & T3). apply inDomain_outside in T2. destruct (numbers_pos_F _ _ _ _ Hre PD G) as (P1 & P2 & P3).
  destruct G. rewrite gs_num in gs_int. destruct gs_int as [_ Gi]. destruct (factor_boundF _ _ _ P1 P2 P3 Gi) as (M1 & M2 & M3).
  destruct gs_x as (qx & X1 & X2), gs_y as (qy & Y1 & Y2), gs_z as (qz & Z1 & Z2).
  destruct PD as (F1 & F2 & F3 & F4 & F5 & F6 & Hx & Hy & Hz & Lx & Ly & Lz). rewrite Lx in X1. rewrite Ly in Y1. rewrite X2, Y2 in *.
  unfold isInDomain in T2. rewrite !andb_true_iff, !negb_true_iff, !orb_false_iff in T2. destruct T2 as [[[A1 A2] [B1 B2]] [C1 C2]].
  assert (K : forall x lo hi q, fin lo = true -> fin hi = true -> @nlt F64 x lo = false -> @nlt F64 hi x = false -> nan x = false ->
    @to_int F64 (ndiv (nsub hi lo) re) = Ok q -> (q + 3 <= int_max)%Z -> exists c, @cell1 F64 x lo re = Ok c).
  { intros x lo hi q Hl Hh H1 H2 Hn Hq Hm. pose proof (between_fin _ _ _ Hl Hh Hn H1 H2) as Fx. assert (BX : (F2r lo <= F2r x <= F2r hi)%R) by (split; [apply Flt_fin_false in H1|apply Flt_fin_false in H2]; auto).
    destruct (cell1_F x lo hi re q Hre Hl Hh Fx BX Hq Hm) as [C _]. eexists. exact C. }
  unfold cell. destruct (nan (vx (p_pos p))) eqn:NX; [rewrite nan_cast by exact NX; reflexivity|].
  destruct (K _ _ _ _ F1 F2 A1 A2 NX X1 M1) as (cx & ->). cbn [bind].
  destruct (nan (vy (p_pos p))) eqn:NY; [rewrite nan_cast by exact NY; reflexivity|].
  destruct (K _ _ _ _ F3 F4 B1 B2 NY Y1 M2) as (cy & ->). cbn [bind].
  destruct (nan (vz (p_pos p))) eqn:NZ; [rewrite nan_cast by exact NZ; reflexivity|]. destruct T3. now split.
Qed.
Lemma cells_untrapped re d ns (ps : list partF) : radiusF re -> proper_domainF d -> @grid_shape F64 re d (List.length ps) ns -> Forall (fun p => ~ trapped d p) ps -> @cells_ok F64 (ns_bucket ns) ps.
Proof.
  intros Hre PD G F p Hin L. pose proof G as G'. destruct G'. rewrite gs_bdom in *. rewrite gs_blen. eexists. eapply cell_F; eauto; [|now apply live_F_dom].
  rewrite Forall_forall in F. specialize (F p Hin). destruct (no_nan_dec (p_pos p)) as [H|H]; [exact H|]. destruct F.
  split; [apply live_not_ghost in L; unfold is_type in L; now apply Z.eqb_neq in L|]. split; [apply inDomain_outside; now apply live_F_dom|exact H].
Qed.

Lemma upd_app1 {A} : forall (l r : list A) j a, (j < List.length l)%nat -> upd (l ++ r) j a = upd l j a ++ r.
Proof. induction l as [|b l IH]; intros r [|j] a H; cbn in *; try lia; [reflexivity|]. f_equal. apply IH. lia. Qed.
(** ** The loop that stores the particles, up to the first trapped one *)
Lemma store1_tail d len nX nY j (f l x : list Z) (A B B' : list partF) : (j < List.length A)%nat ->
  forall f' l' x' Q, @store1 F64 d len nX nY j (f, l, x, A ++ B') = Ok (f', l', x', Q) ->
  exists A', List.length A' = List.length A /\ Q = A' ++ B' /\ @store1 F64 d len nX nY j (f, l, x, A ++ B) = Ok (f', l', x', A' ++ B).
Proof.
  intros J f' l' x' Q H. unfold store1 in *. rewrite nth_error_app1 in * by exact J. destruct (nth_error A j) as [p|] eqn:E; [|discriminate].
  destruct (is_type p Ghost); [injection H as <- <- <- <-; exists A; auto|].
  destruct (negb (isInDomain d (p_pos p))).
  - injection H as <- <- <- <-. exists (upd A j (set_type p Ghost)). split; [apply length_upd|]. rewrite !upd_app1 by exact J. auto.
  - destruct (cell d len (p_pos p)) as [c| | | | |]; try discriminate. cbn [bind] in *. destruct (flat nX nY c) as [ib| | | | |]; try discriminate. cbn [bind] in *.
    destruct (vget l ib) as [v| | | | |]; try discriminate. cbn [bind] in *.
    destruct (if v =? -1 then _ else _) as [[f1 x1]| | | | |]; try discriminate. cbn [bind] in *. destruct (vset l ib (p_id p)) as [l1| | | | |]; try discriminate. cbn [bind] in *.
    injection H as <- <- <- <-. exists A. auto.
Qed.
Lemma fold_tail d len nX nY (B B' : list partF) : forall js f l x (A : list partF), Forall (fun j => (j < List.length A)%nat) js ->
  forall f' l' x' Q, foldM (@store1 F64 d len nX nY) js (f, l, x, A ++ B') = Ok (f', l', x', Q) ->
  exists A', List.length A' = List.length A /\ Q = A' ++ B' /\ foldM (@store1 F64 d len nX nY) js (f, l, x, A ++ B) = Ok (f', l', x', A' ++ B).
Proof.
  induction js as [|j js IH]; intros f l x A F f' l' x' Q H; cbn [foldM] in *.
  - injection H as <- <- <- <-. exists A. auto.
  - inversion F as [|a b F1 F2]; subst. destruct (@store1 F64 d len nX nY j (f, l, x, A ++ B')) as [[[[f1 l1] x1] Q1]| | | | |] eqn:E; try discriminate. cbn [bind] in H.
    destruct (store1_tail _ _ _ _ _ _ _ _ A B B' F1 _ _ _ _ E) as (A1 & L1 & -> & E1). rewrite E1. cbn [bind].
    destruct (IH f1 l1 x1 A1) with (f' := f') (l' := l') (x' := x') (Q := Q) as (A2 & L2 & -> & E2); [now rewrite L1|exact H|]. exists A2. rewrite L2, L1. auto.
Qed.
Lemma first_trapped d (ps : list partF) : Exists (trapped d) ps -> exists A p B, ps = A ++ p :: B /\ Forall (fun q => ~ trapped d q) A /\ trapped d p.
Proof.
  induction ps as [|q ps IH]; intros H; [inversion H|]. destruct (trapped_dec d q) as [T|T]; [exists [], q, ps; auto|].
  inversion H as [a b H1|a b H1]; subst; [contradiction|]. destruct (IH H1) as (A & p & B & -> & F & TP). exists (q :: A), p, B. auto.
Qed.
Lemma ghost_untrapped d (l : list partF) : Forall (fun q => ~ trapped d q) (map (fun q => set_type q Ghost) l).
Proof. apply Forall_forall. intros q H. apply in_map_iff in H as (r & <- & _). intros (H & _). now apply H. Qed.
Lemma indexed_ghost (A B : list partF) : indexed (A ++ B) -> indexed (A ++ map (fun q => set_type q Ghost) B).
Proof.
  intros H i p E. destruct (Nat.lt_ge_cases i (List.length A)) as [L|L].
  - rewrite nth_error_app1 in E by exact L. apply H. now rewrite nth_error_app1.
  - rewrite nth_error_app2 in E by exact L. rewrite nth_error_map in E. destruct (nth_error B (i - List.length A)) as [q|] eqn:K; [|discriminate]. injection E as <-.
    change (p_id (set_type q Ghost)) with (p_id q). apply H. now rewrite nth_error_app2.
Qed.
Lemma store_trapped re d ns (ps : list partF) : radiusF re -> proper_domainF d -> @grid_shape F64 re d (List.length ps) ns -> indexed ps -> Exists (trapped d) ps ->
  @storeParticles F64 (ns_bucket ns) ps = Undef BadCast.
Proof.
  intros Hre PD G I X. destruct (first_trapped _ _ X) as (A & p & B & -> & FA & TP). clear X.
  set (B' := map (fun q : partF => set_type q Ghost) (p :: B)).
  assert (LE : List.length (A ++ B') = List.length (A ++ p :: B)) by (unfold B'; rewrite !app_length, map_length; reflexivity).
  assert (G' : @grid_shape F64 re d (List.length (A ++ B')) ns) by (rewrite LE; exact G).
  pose proof (searcher_ok_F _ _ _ _ Hre PD G') as SO. destruct SO.
  assert (C : @cells_ok F64 (ns_bucket ns) (A ++ B')) by (apply (cells_untrapped re d); auto; apply Forall_app; split; [exact FA|apply ghost_untrapped]).
  destruct (storeParticles_ok _ _ so_grid C (indexed_ghost _ _ I)) as (b' & ps' & E & _).
  pose proof (cell_trapped _ _ _ _ _ Hre PD G TP) as CT. destruct G. rewrite <- gs_blen, <- gs_bdom in CT.
  unfold storeParticles in *. rewrite LE in E. destruct (negb _); [discriminate|]. destruct (negb _); [discriminate|]. cbv zeta in *.
  rewrite app_length in *. cbn [List.length] in *. rewrite Nat.add_comm, <- seq_app in * || idtac.
  rewrite seq_app, foldM_app in *. cbn [Nat.add] in *.
  match type of E with context [foldM ?f (seq 0 ?k) (?a1, ?a2, ?a3, A ++ B')] => destruct (foldM f (seq 0 k) (a1, a2, a3, A ++ B')) as [[[[f' l'] x'] Q]| | | | |] eqn:F; try discriminate end.
  apply (fold_tail _ _ _ _ (p :: B)) in F as (A' & LA & _ & F); [|apply Forall_forall; intros j J; apply in_seq in J; lia].
  rewrite F. cbn [bind]. cbn [seq foldM]. unfold store1 at 1. rewrite nth_error_app2, LA, Nat.sub_diag by lia. cbn [nth_error].
  destruct TP as (T1 & T2 & _). unfold is_type. apply Z.eqb_neq in T1. rewrite T1. apply inDomain_outside in T2. rewrite gs_bdom, T2. cbn [negb]. rewrite gs_bdom in CT. rewrite CT. reflexivity.
Qed.
Lemma search_ends re d ns (ps : list partF) : radiusF re -> proper_domainF d -> @used_searcher F64 re d (List.length ps) ns -> indexed ps ->
  (Exists (trapped d) ps -> setNeighbors ns ps = Undef BadCast) /\ (~ Exists (trapped d) ps -> exists ns' ps', setNeighbors ns ps = Ok (ns', ps')).
Proof.
  intros Hre PD U I. pose proof (used_shape _ _ _ _ U) as G. split; intros H.
  - unfold setNeighbors. rewrite (store_trapped re d); auto.
  - apply Forall_Exists_neg in H. destruct (setNeighbors_run ns ps (searcher_ok_F _ _ _ _ Hre PD G) I (cells_untrapped re d ns ps Hre PD G H)) as (ns' & E & _). eauto.
Qed.

(** ** One step *)
Lemma stages_kept (m : @mps F64) ns ps : sound m ->
  ((ns = m_ns m /\ ps = m_ps m) \/ stepMove m = Ok (ns, ps) \/ exists ns0 ps0, stepMove m = Ok (ns0, ps0) /\ stepCollide m ns0 ps0 = Ok (ns, ps)) ->
  @used_searcher F64 (s_reMax (m_settings m)) (s_domain (m_settings m)) (List.length ps) ns /\ indexed ps.
Proof.
  intros SD W. destruct SD as (I & _ & US). destruct W as [[-> ->]|[W|(ns0 & ps0 & W0 & W)]]; auto.
  - split; [eapply move_searcher; eauto|]. eapply move_indexed; eauto.
  - assert (U0 : used_searcher (s_reMax (m_settings m)) (s_domain (m_settings m)) (List.length ps0) ns0) by (eapply move_searcher; eauto).
    split; [eapply collide_searcher; eauto|]. eapply collide_indexed; [|eauto]; eapply move_indexed; eauto.
Qed.
Lemma step_trapped S (m : @mps F64) : sound m -> radiusF (s_reMax (m_settings m)) -> proper_domainF (s_domain (m_settings m)) ->
  meets_nan m -> stepForward S m = Undef BadCast.
Proof.
  intros SD RF PD (ns & ps & W & X). destruct (stages_kept m ns ps SD W) as (US & I). destruct (search_ends _ _ _ _ RF PD US I) as (E & _). specialize (E X).
  unfold stepForward. destruct W as [[-> ->]|[W|(ns0 & ps0 & W0 & W)]].
  - unfold stepMove. rewrite E. reflexivity.
  - rewrite W. cbn [bind]. unfold stepCollide. rewrite E. reflexivity.
  - rewrite W0. cbn [bind]. rewrite W. cbn [bind]. unfold stepPressure. rewrite E. reflexivity.
Qed.
Lemma step_exact S (m : @mps F64) : sound m -> sized S -> radiusF (s_reMax (m_settings m)) -> proper_domainF (s_domain (m_settings m)) ->
  good_end S m (stepForward S m) \/ (meets_nan m /\ stepForward S m = Undef BadCast).
Proof.
  intros SD SZ RF PD. destruct (C51_lemma S m SD SZ) as [G|(ns & ps & F & W)]; auto. right.
  destruct (stages_kept m ns ps SD W) as (US & I). destruct (search_ends _ _ _ _ RF PD US I) as (_ & E).
  assert (M : meets_nan m).
  { destruct (Classical_Prop.classic (Exists (trapped (s_domain (m_settings m))) ps)) as [X|X]; [exists ns, ps; auto|]. destruct (E X) as (ns' & ps' & E'). rewrite E' in F. destruct F. }
  split; [exact M|]. now apply step_trapped.
Qed.
Lemma step_undef S (m : @mps F64) : sound m -> sized S -> radiusF (s_reMax (m_settings m)) -> proper_domainF (s_domain (m_settings m)) ->
  ((exists u, stepForward S m = Undef u) <-> meets_nan m) /\ (meets_nan m -> stepForward S m = Undef BadCast) /\
  (~ meets_nan m -> (exists m', stepForward S m = Ok m') \/ (asserts m = true /\ stepForward S m = AssertFail) \/ ((exists n ts b, S n ts b = None) /\ stepForward S m = Exit (-1))).
Proof.
  intros SD SZ RF PD. destruct (step_exact S m SD SZ RF PD) as [G|[M E]].
  - assert (N : ~ exists u, stepForward S m = Undef u) by (intros (u & E); destruct G as [(a & G)|[(_ & G)|(_ & _ & G)]]; congruence).
    split; [|split; [now apply step_trapped|]].
    + split; [intros H; contradiction|intros M; exists BadCast; now apply step_trapped].
    + intros _. destruct G as [(a & G)|[(D & G)|((det & q & Q) & F & G)]]; eauto.
  - split; [|split]; [split; eauto|auto|contradiction].
Qed.
