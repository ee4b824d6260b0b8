(** * The whole step commutes with rigid motions and renumbering (C69, C70) *)
From Coq Require Import Reals Lra Psatz PeanoNat.
From Verif Require Export SymStepR.
Open Scope R_scope.
#[local] Remove Hints F64 : typeclass_instances.

(** ** Types can only become Ghost, densities stay *)
Definition lessens (ps ps' : list partR) : Prop := List.length ps' = List.length ps /\
  forall i p, nth_error ps i = Some p -> exists p', nth_error ps' i = Some p' /\ (p_type p' = p_type p \/ p_type p' = Ghost) /\ p_dens p' = p_dens p.
Lemma lessens_trans a b c : lessens a b -> lessens b c -> lessens a c.
Proof.
  intros (L1 & H1) (L2 & H2). split; [congruence|]. intros i p P. destruct (H1 i p P) as (q & Q & T & D). destruct (H2 i q Q) as (r & R & T' & D'). exists r. split; [exact R|]. split; [|congruence].
  destruct T' as [T'|T']; [rewrite T'; exact T|right; exact T'].
Qed.
Lemma kept_iff a b : List.length b = List.length a -> (kept a b <-> forall i p q, nth_error a i = Some p -> nth_error b i = Some q -> p_type q = p_type p).
Proof.
  intros LN. split; [intros K i p q P Q; eapply map_nth_type; eauto|]. intros H. unfold kept. apply nth_ext with (d := 0%Z) (d' := 0%Z); [now rewrite !map_length|].
  intros n Hn. rewrite map_length in Hn. destruct (nth_error b n) as [q|] eqn:Q; [|apply nth_error_None in Q; lia]. destruct (nth_error a n) as [p|] eqn:P; [|apply nth_error_None in P; lia].
  rewrite (nth_error_nth _ _ _ (map_nth_error p_type _ _ Q)), (nth_error_nth _ _ _ (map_nth_error p_type _ _ P)). eauto.
Qed.
Lemma kept_split a b c : lessens a b -> lessens b c -> kept a c -> kept a b /\ kept b c.
Proof.
  intros (L1 & H1) (L2 & H2) K. rewrite kept_iff in K by congruence.
  assert (A : forall i p q r, nth_error a i = Some p -> nth_error b i = Some q -> nth_error c i = Some r -> p_type q = p_type p /\ p_type r = p_type q).
  { intros i p q r P Q R. specialize (K i p r P R). destruct (H1 i p P) as (q' & Q' & T & _). assert (q' = q) by congruence. subst q'. destruct (H2 i q Q) as (r' & R' & T' & _). assert (r' = r) by congruence. subst r'.
    destruct T as [T|T], T' as [T'|T']; try (split; congruence). }
  split; apply kept_iff; auto.
  - intros i p q P Q. destruct (H2 i q Q) as (r & R & _). exact (proj1 (A i p q r P Q R)).
  - intros i q r Q R. destruct (nth_error a i) as [p|] eqn:P; [|apply nth_error_None in P; assert (nth_error b i <> None) as X by congruence; apply nth_error_Some in X; lia]. exact (proj2 (A i p q r P Q R)).
Qed.
Lemma swept_lessens d ps a : swept d ps a -> lessens ps a.
Proof.
  intros S. assert (LN := S). unfold swept in LN. apply Forall2_length in LN. split; [congruence|]. intros i p P. destruct (Forall2_nth _ _ _ _ _ S P) as (p' & P' & (t & l & E) & A & N). exists p'. split; [exact P'|].
  split; [|rewrite E; reflexivity]. assert (DD : active d p \/ ~ active d p).
    { unfold active, in_box. destruct (Z.eq_dec (p_type p) Ghost); [right; tauto|].
      destruct (Rle_dec (xMin d) (vx (p_pos p))); [|right; tauto]. destruct (Rle_dec (vx (p_pos p)) (xMax d)); [|right; tauto].
      destruct (Rle_dec (yMin d) (vy (p_pos p))); [|right; tauto]. destruct (Rle_dec (vy (p_pos p)) (yMax d)); [|right; tauto].
      destruct (Rle_dec (zMin d) (vz (p_pos p))); [|right; tauto]. destruct (Rle_dec (vz (p_pos p)) (zMax d)); [|right; tauto]. left; tauto. }
  destruct DD; auto.
Qed.
Lemma predicted_lessens s g n0 la a b : predicted s g n0 la a b -> lessens a b.
Proof. intros (LN & H). split; [exact LN|]. intros i p P. destruct (H i p P) as (p' & P' & T & D & _). exists p'. auto. Qed.
Lemma counted_lessens re a b : counted re a b -> lessens a b.
Proof. intros (LN & H). split; [exact LN|]. intros i p P. destruct (H i p P) as (p' & P' & T & D & _). exists p'. auto. Qed.
Lemma corrected_lessens s n0 a b : corrected s n0 a b -> lessens a b.
Proof. intros (LN & H). split; [exact LN|]. intros i p P. destruct (H i p P) as (p' & P' & T & D & _). exists p'. auto. Qed.
Lemma lessens_refl a : lessens a a.
Proof. split; [reflexivity|]. intros i p P. exists p. auto. Qed.
Lemma bumped_lessens e k d i j u u' : bumped e k d i j u u' -> lessens u u'.
Proof.
  intros (p & q & P & Q & SM & DF). destruct (Req_dec (euclid (p_pos p) (p_pos q)) 0) as [E|E].
  - rewrite (SM (euclid_0 _ _ E)). apply lessens_refl.
  - destruct DF as (vp & vq & a & b & al & be & -> & _); [intros X; apply E; rewrite X; apply euclid_same|]. split; [now rewrite !length_upd|].
    intros x r R. rewrite !nth_upd, R. destruct (Nat.eqb_spec j x) as [->|].
    + destruct (Nat.eqb_spec i x); (eexists; split; [reflexivity|]); cbn; assert (r = q) by congruence; subst; auto.
    + destruct (Nat.eqb_spec i x) as [->|]; (eexists; split; [reflexivity|]); cbn; auto. assert (r = p) by congruence. subst. auto.
Qed.
Lemma bumps_lessens e k ps tr : forall u u', bumps e k ps tr u u' -> lessens u u'.
Proof.
  induction tr as [|[i j] tr IH]; cbn [bumps]; intros u u' H; [subst; apply lessens_refl|]. destruct H as (v & d & _ & B & BS). eapply lessens_trans; [eapply bumped_lessens; eauto|apply IH; exact BS].
Qed.
Lemma collided_lessens s ps a : collided s ps a -> lessens ps a.
Proof. intros (tr & _ & _ & B). exact (bumps_lessens _ _ _ _ _ _ B). Qed.
Lemma lessens_dens (a b : list partR) : lessens a b -> (forall p, In p a -> 0 < p_dens p) -> forall p, In p b -> 0 < p_dens p.
Proof.
  intros (LN & H) D p P. apply In_nth_error in P. destruct P as (i & P). destruct (nth_error a i) as [q|] eqn:Q; [|apply nth_error_None in Q; assert (nth_error b i <> None) as X by congruence; apply nth_error_Some in X; lia].
  destruct (H i q Q) as (p' & P' & _ & E). assert (p' = p) by congruence. subst. rewrite E. apply D. eapply nth_error_In; eauto.
Qed.

Section Twin.
Variables f L : vecR -> vecR.
Hypothesis RG : rigid f L.
Variable sigma : nat -> nat.

Lemma interacts_twin re ps qs i p q j r : twin f L sigma ps qs -> nth_error ps i = Some p -> nth_error qs (sigma i) = Some q -> interacts re ps i p j r ->
  exists r', interacts re qs (sigma i) q (sigma j) r' /\ nth_error ps j = Some r /\ nth_error qs (sigma j) = Some r'.
Proof.
  intros T P Q (R & N & G & DW & C). destruct (twin_at _ _ _ _ _ _ _ T R) as (r' & R' & Tr & _ & Xr & _). destruct (twin_at _ _ _ _ _ _ _ T P) as (q0 & Q0 & Tq & _ & Xq & _). assert (q0 = q) by congruence. subst q0.
  exists r'. split; [|auto]. split; [exact R'|]. split; [intros E; apply N; eapply twin_inj; eauto|]. rewrite Tr, Xq, Xr, (euclid_f f L RG). auto.
Qed.
Lemma interacts_back re ps qs i p q j' r' : twin f L sigma ps qs -> nth_error ps i = Some p -> nth_error qs (sigma i) = Some q -> interacts re qs (sigma i) q j' r' ->
  exists j r, sigma j = j' /\ interacts re ps i p j r /\ nth_error ps j = Some r /\ nth_error qs (sigma j) = Some r'.
Proof.
  intros T P Q (R & N & G & DW & C). destruct (twin_back _ _ _ _ _ _ _ T R) as (j & r & <- & R' & Tr & _ & Xr & _). destruct (twin_at _ _ _ _ _ _ _ T P) as (q0 & Q0 & Tq & _ & Xq & _). assert (q0 = q) by congruence. subst q0.
  exists j, r. split; [reflexivity|]. split; [|auto]. split; [exact R'|]. split; [congruence|]. rewrite Xq, Xr, (euclid_f f L RG), Tr in *. auto.
Qed.
Lemma least_twin re ps qs i p q m m' : twin f L sigma ps qs -> nth_error ps i = Some p -> nth_error qs (sigma i) = Some q ->
  (forall i p q, nth_error ps i = Some p -> nth_error qs (sigma i) = Some q -> p_press q = p_press p) ->
  least re ps i p m -> least re qs (sigma i) q m' -> m' = m.
Proof.
  intros T P Q PR (A1 & A2 & A3) (B1 & B2 & B3). apply Rle_antisym.
  - destruct A3 as [->|(j & r & I & ->)]; [rewrite <- (PR i p q P Q); exact B1|]. destruct (interacts_twin _ _ _ _ _ _ _ _ T P Q I) as (r' & I' & R & R'). rewrite <- (PR j r r' R R'). eapply B2; eauto.
  - destruct B3 as [->|(j & r & I & ->)]; [rewrite (PR i p q P Q); exact A1|]. destruct (interacts_back _ _ _ _ _ _ _ _ T P Q I) as (j0 & r0 & <- & I' & R & R'). rewrite (PR j0 r0 r R R'). eapply A2; eauto.
Qed.
Lemma corrected_twin s s' n0 a b a' b' : twin f L sigma a a' -> corrected s n0 a b -> corrected s' n0 a' b' ->
  s_dt s' = s_dt s -> s_dim s' = s_dim s -> s_reG s' = s_reG s ->
  twin_press sigma a a' -> twin f L sigma b b' /\ twin_press sigma b b'.
Proof.
  intros T (L1 & H1) (L2 & H2) E1 E2 E3 TP.
  assert (PR : forall i p q, nth_error a i = Some p -> nth_error a' (sigma i) = Some q -> p_press q = p_press p) by (intros i p q P Q; exact (proj2 (TP i p q P Q))).
  assert (K : forall i p', nth_error b i = Some p' -> exists q', nth_error b' (sigma i) = Some q' /\
    (p_type q' = p_type p' /\ p_dens q' = p_dens p' /\ p_pos q' = f (p_pos p') /\ p_vel q' = L (p_vel p')) /\ p_nd q' = p_nd p' /\ p_press q' = p_press p').
  { intros i p' P'. assert (exists p, nth_error a i = Some p) as (p & P). { destruct (nth_error a i) eqn:X; [eauto|]. apply nth_error_None in X. assert (nth_error b i <> None) as Y by congruence. apply nth_error_Some in Y. lia. }
    destruct (H1 i p P) as (p1 & P1 & Tp & Dp & Pp & Np & NF & FF). rewrite P' in P1. injection P1 as P1. subst p1.
    destruct (twin_at _ _ _ _ _ _ _ T P) as (q & Q & Tq & Dq & Xq & Vq). destruct (H2 _ q Q) as (q1 & Q1 & Tq1 & Dq1 & Pq1 & Nq1 & NF' & FF').
    exists q1. split; [exact Q1|]. destruct (TP i p q P Q) as (N0 & P0). split; [|split; congruence]. split; [congruence|]. split; [congruence|].
    destruct (Z.eq_dec (p_type p) Fluid) as [F|F].
    - destruct (FF F) as (m & LE & V & X). destruct (FF' ltac:(congruence)) as (m' & LE' & V' & X'). cbv zeta in V, X, V', X'.
      rewrite E3 in LE'. assert (m' = m) by (eapply least_twin; eauto). subst m'.
      assert (PF : pressure_force (s_dim s') n0 (s_reG s') m a' (sigma i) q = L (pressure_force (s_dim s) n0 (s_reG s) m a i p)).
      { unfold pressure_force. destruct RG as (_ & _ & LK & _). rewrite LK, E2, E3, Dq. f_equal. apply (sumv_twin f L RG sigma a a' i p _ _ T P). intros j u v U W N G.
        destruct (twin_at _ _ _ _ _ _ _ T U) as (w & W' & Tw & _ & Xw & _). assert (w = v) by congruence. subst w.
        rewrite Tw, Xw, Xq, (PR j u v U W), (euclid_f f L RG), (diff_f f L RG), <- LK. destruct (p_type u =? DummyWall)%Z; [now rewrite (L_zero f L RG)|reflexivity]. }
      destruct RG as (_ & LA & LK & _). rewrite V, X, V', X', PF, E1, Xq, Vq, (f_add f L RG), LA, !LK. auto.
    - destruct (NF F) as (V & X). destruct (NF' ltac:(congruence)) as (V' & X'). rewrite X, X', V, V'. auto. }
  split; [split; [rewrite L1, L2; exact (proj1 T)|split; [rewrite L1; exact (proj1 (proj2 T))|]]|].
  - intros i p P. destruct (K i p P) as (q & Q & X & _). exists q. split; [exact Q|exact X].
  - intros i p q P Q. destruct (K i p P) as (q' & Q' & _ & X). assert (q' = q) by congruence. now subst.
Qed.

(** ** The step *)
Lemma twin_dens ps qs : twin f L sigma ps qs -> (forall p, In p ps -> 0 < p_dens p) -> forall q, In q qs -> 0 < p_dens q.
Proof.
  intros T D q Q. apply In_nth_error in Q. destruct Q as (j & Q). destruct (twin_back _ _ _ _ _ _ _ T Q) as (i & p & _ & P & _ & E & _). rewrite E. apply D. eapply nth_error_In; eauto.
Qed.
Lemma courant_twin s s' ps qs : twin f L sigma ps qs -> s_dt s' = s_dt s -> s_l0 s' = s_l0 s -> fst (calCourant s' qs) = fst (calCourant s ps).
Proof.
  intros T E1 E2. destruct (courant_max s ps 0) as (A1 & A2 & A3). destruct (courant_max s' qs 0) as (B1 & B2 & B3). unfold calCourant. cbn [fst].
  change (@nofZ Rnum 0) with 0. set (c := fold_left (courant1 s) ps 0) in *. set (c' := fold_left (courant1 s') qs 0) in *. destruct RG as (_ & _ & _ & LD). apply Rle_antisym.
  - destruct B3 as [->|(q & Q & F & ->)]; [exact A1|]. apply In_nth_error in Q. destruct Q as (j & Q). destruct (twin_back _ _ _ _ _ _ _ T Q) as (i & p & _ & P & Tp & _ & _ & V). rewrite V, LD, E1, E2. apply A2; [eapply nth_error_In; eauto|congruence].
  - destruct A3 as [->|(p & P & F & ->)]; [exact B1|]. apply In_nth_error in P. destruct P as (j & P). destruct (twin_at _ _ _ _ _ _ _ T P) as (q & Q & Tp & _ & _ & V). rewrite <- LD, <- V, <- E1, <- E2. apply B2; [eapply nth_error_In; eauto|congruence].
Qed.
Lemma step_twin (S1 S2 : @solver Rnum) (m1 m1' m2 m2' : @mps Rnum) : moved f L sigma m1 m2 -> ready m1 -> ready m2 -> exact_solver S1 -> exact_solver S2 ->
  sensible (m_calc m1) (s_reMax (m_settings m1)) -> positive_compress (m_calc m1) -> (forall p, In p (m_ps m1) -> 0 < p_dens p) ->
  axial L \/ plain_surface (m_calc m1) -> regular m1 -> stepForward S1 m1 = Ok m1' -> stepForward S2 m2 = Ok m2' -> same_losses f m1 m1' m2 m2' ->
  moved f L sigma m1' m2' /\ twin_press sigma (m_ps m1') (m_ps m2') /\ m_courant m2' = m_courant m1' /\ (forall p, In p (m_ps m1') -> 0 < p_dens p).
Proof.
  intros (T & ES & EG & EK) RD1 RD2 X1 X2 SN PC DP AX (AP & ONE & AP') H1 H2 SL.
  assert (ST : forall A (pr : @settings Rnum -> A), (forall s d, pr (with_domain s d) = pr s) -> pr (m_settings m2) = pr (m_settings m1)) by (intros A pr H; rewrite ES; apply H).
  assert (Sdt := ST _ s_dt (fun _ _ => eq_refl)). assert (Sl0 := ST _ s_l0 (fun _ _ => eq_refl)). assert (Sdim := ST _ s_dim (fun _ _ => eq_refl)). assert (Snu := ST _ s_nu (fun _ _ => eq_refl)). assert (SrL := ST _ s_reL (fun _ _ => eq_refl)).
  assert (SrG := ST _ s_reG (fun _ _ => eq_refl)). assert (SrN := ST _ s_reN (fun _ _ => eq_refl)). assert (SrM := ST _ s_reMax (fun _ _ => eq_refl)). assert (Scd := ST _ s_colDist (fun _ _ => eq_refl)). assert (Sre := ST _ s_restitution (fun _ _ => eq_refl)). assert (Sas := ST _ s_asserts (fun _ _ => eq_refl)).
  assert (DP2 := twin_dens _ _ T DP).
  destruct (step_stages S1 m1 m1' RD1 X1 SN DP H1) as (a & b & b1 & c & c1 & e & (n1 & n2 & n3 & n4 & K1 & K2 & K3 & K4 & SI) & W1 & W2 & W3 & W4 & W5 & W6).
  destruct (step_stages S2 m2 m2' RD2 X2 ltac:(rewrite EK, SrM; exact SN) DP2 H2) as (a' & b' & b1' & c' & c1' & e' & (_ & _ & _ & _ & _ & _ & _ & _ & SI') & V1 & V2 & V3 & V4 & V5 & V6).
  assert (RL : m_rvL m2 = m_rvL m1) by (destruct RD1 as (_ & _ & _ & _ & Y1); destruct RD2 as (_ & _ & _ & _ & Y2); rewrite Sas, Sdim, Sl0, SrL in Y2; congruence).
  assert (RGv : m_rvG m2 = m_rvG m1) by (destruct RD1 as (_ & _ & _ & Y1 & _); destruct RD2 as (_ & _ & _ & Y2 & _); rewrite Sas, Sdim, Sl0, SrG in Y2; congruence).
  assert (APa := swept_apart sigma _ _ _ W1 AP). specialize (W2 APa). assert (APc := AP' _ _ _ _ _ _ K1 K3 K4). destruct (W6 APc) as (W7 & W8 & W9). clear W6.
  assert (LS1 := swept_lessens _ _ _ W1). assert (LS2 := predicted_lessens _ _ _ _ _ _ W2). assert (LS3 := swept_lessens _ _ _ W3). assert (LS4 := collided_lessens _ _ _ W4). assert (LS5 := swept_lessens _ _ _ W5). assert (LS6 := counted_lessens _ _ _ W7). assert (LS7 := corrected_lessens _ _ _ _ W9).
  assert (APa' : apart a'). { apply (swept_apart sigma _ _ _ V1). eapply apart_twin; eauto. }
  specialize (V2 APa').
  assert (LT1 := swept_lessens _ _ _ V1). assert (LT2 := predicted_lessens _ _ _ _ _ _ V2). assert (LT3 := swept_lessens _ _ _ V3). assert (LT4 := collided_lessens _ _ _ V4). assert (LT5 := swept_lessens _ _ _ V5).
  assert (LSI : forall l l' : list partR, Forall2 same_id l l' -> lessens l l').
  { intros l l' F. split; [assert (FL := F); apply Forall2_length in FL; congruence|]. intros i p P. destruct (Forall2_nth _ _ _ _ _ F P) as (p' & P' & (_ & D & _ & Ty)). eauto. }
  assert (LS8 := LSI _ _ SI). assert (LT8 := LSI _ _ SI'). clear LSI.
  assert (AG : agree_on f (s_domain (m_settings m1)) (s_domain (m_settings m2)) (m_ps m1) a (m_ps m2) a' /\
               agree_on f (s_domain (m_settings m1)) (s_domain (m_settings m2)) b b1 b' b1' /\
               agree_on f (s_domain (m_settings m1)) (s_domain (m_settings m2)) c c1 c' c1').
  { destruct SL as [BX|SL]; [repeat split; left; exact BX|].
    assert (Q : forall p0 p1 p2 p3 p4 p5 p6 : list partR, lessens p0 p1 -> lessens p1 p2 -> lessens p2 p3 -> lessens p3 p4 -> lessens p4 p5 -> lessens p5 p6 -> kept p0 p6 -> kept p0 p1 /\ kept p2 p3 /\ kept p4 p5).
    { intros p0 p1 p2 p3 p4 p5 p6 Z1 Z2 Z3 Z4 Z5 Z6 KK. assert (Z56 := lessens_trans _ _ _ Z5 Z6). assert (Z456 := lessens_trans _ _ _ Z4 Z56). assert (Z36 := lessens_trans _ _ _ Z3 Z456). assert (Z26 := lessens_trans _ _ _ Z2 Z36).
      destruct (kept_split _ _ _ Z1 Z26 KK) as (R1 & KK1). destruct (kept_split _ _ _ Z2 Z36 KK1) as (_ & KK2). destruct (kept_split _ _ _ Z3 Z456 KK2) as (R2 & KK3). destruct (kept_split _ _ _ Z4 Z56 KK3) as (_ & KK4). destruct (kept_split _ _ _ Z5 Z6 KK4) as (R3 & _). auto. }
    destruct SL as [(BX & KP1)|(KP1 & KP2)]; destruct (Q _ _ _ _ _ _ _ LS1 LS2 LS3 LS4 LS5 LS8 KP1) as (R1 & R2 & R3); [repeat split; right; left; auto|]. destruct (Q _ _ _ _ _ _ _ LT1 LT2 LT3 LT4 LT5 LT8 KP2) as (R1' & R2' & R3').
    repeat split; right; right; auto. }
  destruct AG as (AG1 & AG2 & AG3).
  assert (Ta : twin f L sigma a a') by (eapply swept_twin; eauto).
  assert (Tb : twin f L sigma b b') by (rewrite EG, RL in V2; eapply predicted_twin; eauto).
  assert (Tb1 : twin f L sigma b1 b1') by (eapply swept_twin; eauto).
  assert (DB1 := lessens_dens _ _ (lessens_trans _ _ _ (lessens_trans _ _ _ LS1 LS2) LS3) DP).
  assert (Tc : twin f L sigma c c').
  { eapply (collided_twin f L RG sigma (m_settings m1) (m_settings m2)); eauto. intros i p P _. apply DB1. eapply nth_error_In; eauto. }
  assert (Tc1 : twin f L sigma c1 c1') by (eapply swept_twin; eauto).
  destruct (V6 (apart_twin f L RG sigma _ _ Tc1 APc)) as (V7 & V8 & V9). clear V6. rewrite SrN in V7. rewrite EK, SrM in V8. rewrite RGv in V9.
  destruct (counted_twin f L RG sigma _ _ _ _ _ Tc1 W7 V7) as (Te & NDe).
  assert (DE := lessens_dens _ _ LS6 (lessens_dens _ _ (lessens_trans _ _ _ LS4 LS5) DB1)).
  assert (APe : apart e).
  { destruct W7 as (LN & W7). intros i j p q P Q N Gp Gq.
    assert (exists p0, nth_error c1 i = Some p0) as (p0 & P0). { destruct (nth_error c1 i) eqn:X; [eauto|]. apply nth_error_None in X. assert (nth_error e i <> None) as Y by congruence. apply nth_error_Some in Y. lia. }
    assert (exists q0, nth_error c1 j = Some q0) as (q0 & Q0). { destruct (nth_error c1 j) eqn:X; [eauto|]. apply nth_error_None in X. assert (nth_error e j <> None) as Y by congruence. apply nth_error_Some in Y. lia. }
    destruct (W7 i p0 P0) as (p1 & P1 & Tp & _ & _ & Xp & _). destruct (W7 j q0 Q0) as (q1 & Q1 & Tq & _ & _ & Xq & _). assert (p1 = p) by congruence. assert (q1 = q) by congruence. subst p1 q1.
    rewrite Xp, Xq. apply (APc i j p0 q0 P0 Q0 N); congruence. }
  assert (PRe : forall i p q, nth_error e i = Some p -> nth_error e' (sigma i) = Some q -> p_press q = p_press p).
  { apply (pressed_twin f L RG sigma (m_calc m1) (s_reMax (m_settings m1))); auto. intros i p P _. apply DE. eapply nth_error_In; eauto. }
  destruct (corrected_twin _ _ _ _ _ _ _ Te W9 V9 Sdt Sdim SrG) as (Tf & TPf); [intros i p q P Q; split; eauto|].
  destruct (step_static _ _ _ H1) as (A1 & A2 & A3 & _). destruct (step_static _ _ _ H2) as (B1 & B2 & B3 & _).
  split; [split; [exact Tf|rewrite A1, A2, A3, B1, B2, B3; auto]|]. split; [exact TPf|]. split.
  - rewrite (proj1 (C22_reported _ _ _ H1)), (proj1 (C22_reported _ _ _ H2)). apply courant_twin; auto.
  - exact (lessens_dens _ _ LS7 DE).
Qed.

Lemma steps_twin (S1 S2 : @solver Rnum) n : forall (m1 m1' m2 m2' : @mps Rnum), moved f L sigma m1 m2 -> ready m1 -> ready m2 -> exact_solver S1 -> exact_solver S2 ->
  sensible (m_calc m1) (s_reMax (m_settings m1)) -> positive_compress (m_calc m1) -> (forall p, In p (m_ps m1) -> 0 < p_dens p) ->
  axial L \/ plain_surface (m_calc m1) -> steps S1 n m1 m1' -> steps S2 n m2 m2' ->
  (forall k a a' b b', (k < n)%nat -> steps S1 k m1 a -> stepForward S1 a = Ok a' -> steps S2 k m2 b -> stepForward S2 b = Ok b' -> regular a /\ same_losses f a a' b b') ->
  moved f L sigma m1' m2' /\ ((0 < n)%nat -> twin_press sigma (m_ps m1') (m_ps m2') /\ m_courant m2' = m_courant m1') /\ (forall p, In p (m_ps m1') -> 0 < p_dens p).
Proof.
  induction n as [|n IH]; intros m1 m1' m2 m2' MV R1 R2 X1 X2 SN PC DP AX H1 H2 OK.
  { inversion H1; subst. inversion H2; subst. split; [exact MV|]. split; [lia|exact DP]. }
  inversion H1 as [|? ? m3 ? HA SA]; subst. inversion H2 as [|? ? m4 ? HB SB]; subst.
  destruct (IH m1 m3 m2 m4 MV R1 R2 X1 X2 SN PC DP AX) as (MV' & _ & DP'); auto.
  { intros k a a' b b' K. apply OK. lia. }
  destruct (OK n m3 m1' m4 m2' ltac:(lia)) as (RG' & SL); auto.
  assert (ST : forall k a b S, steps S k a b -> m_settings b = m_settings a /\ m_calc b = m_calc a).
  { clear. induction 1; [auto|]. destruct IHsteps as (A & B). destruct (step_static _ _ _ H0) as (C & _ & D & _). rewrite C, D. auto. }
  destruct (ST _ _ _ _ HA) as (ES & EK). assert (R3 := steps_ready _ _ _ _ HA R1).
  assert (R4 := steps_ready _ _ _ _ HB R2).
  destruct (step_twin S1 S2 m3 m1' m4 m2' MV' R3 R4 X1 X2) as (A & B & C & D); auto; try (rewrite ?EK, ?ES; auto; fail).
Qed.
End Twin.

Lemma identity_rigid : rigid (fun x => x) (fun v => v).
Proof. repeat split. Qed.
Lemma with_own_domain (s : @settings Rnum) : with_domain s (s_domain s) = s.
Proof. now destruct s. Qed.
Lemma C69_numbers_lemma sigma S1 S2 (m1 m1' m2 m2' : @mps Rnum) :
  twin (fun x => x) (fun v => v) sigma (m_ps m1) (m_ps m2) -> m_settings m2 = m_settings m1 -> m_gravity m2 = m_gravity m1 -> m_calc m2 = m_calc m1 ->
  ready m1 -> ready m2 -> exact_solver S1 -> exact_solver S2 -> sensible (m_calc m1) (s_reMax (m_settings m1)) -> positive_compress (m_calc m1) ->
  (forall p, In p (m_ps m1) -> 0 < p_dens p) -> regular m1 -> stepForward S1 m1 = Ok m1' -> stepForward S2 m2 = Ok m2' ->
  twin (fun x => x) (fun v => v) sigma (m_ps m1') (m_ps m2') /\ twin_press sigma (m_ps m1') (m_ps m2') /\ m_courant m2' = m_courant m1'.
Proof.
  intros TW ES EG EK R1 R2 X1 X2 SN PC DP RG H1 H2.
  destruct (step_twin _ _ identity_rigid sigma S1 S2 m1 m1' m2 m2') as ((A & _) & B & C & _); auto.
  - split; [exact TW|]. rewrite ES, with_own_domain. auto.
  - left. intros a. reflexivity.
  - left. rewrite ES. tauto.
Qed.
Lemma C69_axes_lemma f L sigma S1 S2 (m1 m1' m2 m2' : @mps Rnum) : rigid f L -> axial L ->
  moved f L sigma m1 m2 -> ready m1 -> ready m2 -> exact_solver S1 -> exact_solver S2 -> sensible (m_calc m1) (s_reMax (m_settings m1)) -> positive_compress (m_calc m1) ->
  (forall p, In p (m_ps m1) -> 0 < p_dens p) -> regular m1 -> stepForward S1 m1 = Ok m1' -> stepForward S2 m2 = Ok m2' -> same_losses f m1 m1' m2 m2' ->
  moved f L sigma m1' m2' /\ twin_press sigma (m_ps m1') (m_ps m2') /\ m_courant m2' = m_courant m1'.
Proof. intros RG AX MV R1 R2 X1 X2 SN PC DP RE H1 H2 SL. destruct (step_twin f L RG sigma S1 S2 m1 m1' m2 m2') as (A & B & C & _); auto. Qed.
Lemma C70_step_lemma f L sigma S1 S2 (m1 m1' m2 m2' : @mps Rnum) : rigid f L -> plain_surface (m_calc m1) ->
  moved f L sigma m1 m2 -> ready m1 -> ready m2 -> exact_solver S1 -> exact_solver S2 -> sensible (m_calc m1) (s_reMax (m_settings m1)) -> positive_compress (m_calc m1) ->
  (forall p, In p (m_ps m1) -> 0 < p_dens p) -> regular m1 -> stepForward S1 m1 = Ok m1' -> stepForward S2 m2 = Ok m2' -> same_losses f m1 m1' m2 m2' ->
  moved f L sigma m1' m2' /\ twin_press sigma (m_ps m1') (m_ps m2') /\ m_courant m2' = m_courant m1'.
Proof. intros RG AX MV R1 R2 X1 X2 SN PC DP RE H1 H2 SL. destruct (step_twin f L RG sigma S1 S2 m1 m1' m2 m2') as (A & B & C & _); auto. Qed.
Lemma C69_run_lemma f L sigma S1 S2 n (m1 m1' m2 m2' : @mps Rnum) : rigid f L -> axial L ->
  moved f L sigma m1 m2 -> ready m1 -> ready m2 -> exact_solver S1 -> exact_solver S2 -> sensible (m_calc m1) (s_reMax (m_settings m1)) -> positive_compress (m_calc m1) ->
  (forall p, In p (m_ps m1) -> 0 < p_dens p) -> steps S1 n m1 m1' -> steps S2 n m2 m2' ->
  (forall k a a' b b', (k < n)%nat -> steps S1 k m1 a -> stepForward S1 a = Ok a' -> steps S2 k m2 b -> stepForward S2 b = Ok b' -> regular a /\ same_losses f a a' b b') ->
  moved f L sigma m1' m2' /\ ((0 < n)%nat -> twin_press sigma (m_ps m1') (m_ps m2') /\ m_courant m2' = m_courant m1').
Proof. intros RG AX MV R1 R2 X1 X2 SN PC DP H1 H2 OK. destruct (steps_twin f L RG sigma S1 S2 n m1 m1' m2 m2') as (A & B & _); auto. Qed.
Lemma C70_run_lemma f L sigma S1 S2 n (m1 m1' m2 m2' : @mps Rnum) : rigid f L -> plain_surface (m_calc m1) ->
  moved f L sigma m1 m2 -> ready m1 -> ready m2 -> exact_solver S1 -> exact_solver S2 -> sensible (m_calc m1) (s_reMax (m_settings m1)) -> positive_compress (m_calc m1) ->
  (forall p, In p (m_ps m1) -> 0 < p_dens p) -> steps S1 n m1 m1' -> steps S2 n m2 m2' ->
  (forall k a a' b b', (k < n)%nat -> steps S1 k m1 a -> stepForward S1 a = Ok a' -> steps S2 k m2 b -> stepForward S2 b = Ok b' -> regular a /\ same_losses f a a' b b') ->
  moved f L sigma m1' m2' /\ ((0 < n)%nat -> twin_press sigma (m_ps m1') (m_ps m2') /\ m_courant m2' = m_courant m1').
Proof. intros RG AX MV R1 R2 X1 X2 SN PC DP H1 H2 OK. destruct (steps_twin f L RG sigma S1 S2 n m1 m1' m2 m2') as (A & B & _); auto. Qed.
