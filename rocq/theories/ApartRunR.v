(** * A group of particles among others that stay out of reach: steps in exact arithmetic (C83) *)
From Coq Require Import Reals Lra PeanoNat.
From Verif Require Import SymStepR StepFacts ResumeFacts.
From Verif Require Export ApartR SpecApartR.
Open Scope R_scope.
#[local] Remove Hints F64 : typeclass_instances.

Lemma move_ids (m : @mps Rnum) ns ps : stepMove m = Ok (ns, ps) -> Forall2 same_id (m_ps m) ps.
Proof.
  intros E. unfold stepMove in E. binds E. destruct r as [na a]. binds E. inv E.
  eapply Forall2_trans; [apply same_id_trans|eapply search_same_id; eauto|].
  eapply Forall2_trans; [apply same_id_trans|eapply Forall2_impl; [|apply (calGravity_evolves (m_gravity m))]; intros ? ? X; apply X|].
  eapply Forall2_trans; [apply same_id_trans|eapply Forall2_impl; [|eapply calViscosity_evolves; eauto]; intros ? ? X; apply X|].
  eapply Forall2_impl; [|apply moveParticle_evolves]; intros ? ? X; apply X.
Qed.
Lemma collided_ids (m : @mps Rnum) n1 b n2 c : stepCollide m n1 b = Ok (n2, c) -> Forall2 same_id b c.
Proof. intros E. unfold stepCollide in E. binds E. destruct r as [na a]. binds E. inv E. eapply Forall2_trans; [apply same_id_trans|eapply search_same_id; eauto|eapply collision_same_id; eauto]. Qed.

Section RunR.
Variable e : nat -> nat.

Lemma apart_alike (W W' : list partR) : Forall2 alike_pos W' W -> apart W' -> apart W.
Proof.
  intros F A i j p q P Q NE TP TQ. destruct (Forall2_nth_r _ _ _ _ _ F P) as (p0 & P0 & T0 & X0). destruct (Forall2_nth_r _ _ _ _ _ F Q) as (q0 & Q0 & T1 & X1).
  rewrite <- X0, <- X1. apply (A i j p0 q0); congruence.
Qed.
Lemma spread_alike (m r : @mps Rnum) : sound m -> sound r -> same_setup m r -> Forall2 alike (m_ps m) (m_ps r) -> spread m -> spread r.
Proof.
  intros SM SR SS L SP n1 b n2 c n3 c1 H1 H2 H3. destruct (searched_back m r _ _ _ _ _ _ SM SR SS L H1 H2 H3) as (u1 & b' & u2 & c' & u3 & c1' & K1 & K2 & K3 & F).
  eapply apart_alike; [exact F|]. eapply SP; eauto.
Qed.
Lemma apart_linked (W A : list partR) : linked e W A -> apart W -> apart A.
Proof.
  intros L AP i j p q P Q NE TP TQ. apply (AP (e i) (e j) (carry e p) (carry e q)); auto.
  - apply (proj2 (l_piece _ _ _ L)); auto.
  - apply (proj2 (l_piece _ _ _ L)); auto.
  - intros X. apply NE. apply (inj e (List.length A)); auto; try (apply nth_error_Some; congruence). apply L.
Qed.
Lemma far_searched re d ns (c : list partR) ns' c1 w n : used_searcher re d (List.length c) ns -> setNeighbors ns c = Ok (ns', c1) -> Forall2 same_move c1 w ->
  @out_of_reach Rnum re d e n c -> far e re n w.
Proof.
  intros U H MV FAR i j p q I ST P Q GP GQ. destruct (Forall2_nth_r _ _ _ _ _ MV P) as (p1 & P1 & ((T1 & X1 & _) & _) & _). destruct (Forall2_nth_r _ _ _ _ _ MV Q) as (q1 & Q1 & ((T2 & X2 & _) & _) & _).
  assert (SW := search_swept _ _ _ _ _ _ U H). destruct (Forall2_nth_r _ _ _ _ _ SW P1) as (p0 & P0 & (t & l & EP) & _ & NP). destruct (Forall2_nth_r _ _ _ _ _ SW Q1) as (q0 & Q0 & (t' & l' & EQ) & _ & NQ).
  assert (AP : active d p0) by (destruct (Classical_Prop.classic (active d p0)) as [Y|Y]; [exact Y|exfalso; apply GP; rewrite T1; auto]).
  assert (AQ : active d q0) by (destruct (Classical_Prop.classic (active d q0)) as [Y|Y]; [exact Y|exfalso; apply GQ; rewrite T2; auto]).
  assert (K : forall x, active d x -> @present Rnum d x) by (intros x (A & B); split; [exact A|]; intros O; apply outside_box in O; contradiction).
  destruct (FAR i j p0 q0 I ST P0 Q0 (K _ AP) (K _ AQ)) as (F & _). rewrite dist_R in F. apply nlt_R_false in F. rewrite X1, X2, EP, EQ. exact F.
Qed.

(** ** one step, either method *)
Lemma step_both (S1 S2 : @solver Rnum) (m r m' r' : @mps Rnum) : ready m -> ready r -> exact_solver S1 -> exact_solver S2 -> sensible (m_calc m) (s_reMax (m_settings m)) -> positive_compress (m_calc m) ->
  (forall p, In p (m_ps m) -> 0 < p_dens p) -> sub_machine e m r -> never_reached e (List.length (m_ps r)) m -> spread m ->
  stepForward S1 m = Ok m' -> stepForward S2 r = Ok r' -> sub_machine e m' r'.
Proof.
  intros RM RR X1 X2 SN PC DN SB NR SP HM HR. assert (SM := proj1 RM). assert (SR := proj1 RR). assert (SS := proj1 SB). pose proof SS as (ES & EG & EN & EGr & EL & EK).
  assert (OKS : @searchable Rnum (s_reMax (m_settings m)) (s_domain (m_settings m))) by (apply searchable_R; [now apply ready_reMax|apply RM]).
  unfold stepForward in HM. binds HM. destruct r0 as [n1 b]. binds HM. destruct r0 as [n2 c]. binds HM. destruct r0 as [n3 w]. binds HM. destruct (calCourant _ _) as [cr er] eqn:EC. inv HM.
  pose proof E1 as K. unfold stepPressure in K. binds K. destruct r1 as [nn c1]. binds K. binds K. destruct r2 as [c3 x]. binds K. inv K. rename E3 into HS, E4 into HD, E5 into HC, E6 into HA.
  destruct (to_density e m r _ _ _ _ _ _ _ OKS SM SR SB NR E E0 HS HD) as (u1 & b' & u2 & c' & u3 & c1' & c2' & M1 & M2 & M3 & M4 & _ & LC & LC1 & L).
  unfold stepForward in HR. rewrite M1 in HR. cbn [bind] in HR. rewrite M2 in HR. cbn [bind] in HR. binds HR. destruct r2 as [u4 w']. binds HR. destruct (calCourant (m_settings r) _) as [cr' er'] eqn:EC'. inv HR.
  pose proof E3 as K. unfold stepPressure in K. rewrite M3 in K. cbn [bind] in K. rewrite <- ES, M4 in K. cbn [bind] in K. rewrite <- EK in K. binds K. destruct r3 as [c3' x']. binds K. inv K. rename E5 into HC', E6 into HA'.
  assert (L3 : linked e c3 c3').
  { destruct (m_calc m) as [det q|n0 cc]; cbn [calc] in HC, HC'.
    - assert (GB : forall (S : @solver Rnum) (ps ps' : list partR) y, implicitCalc S det q ps = Ok (ps', y) -> setBoundaryCondition det ps = Ok ps').
      { clear. intros S ps ps' y H. unfold implicitCalc, generateBC in H. destruct (setBoundaryCondition det ps) as [t| | | | |]; cbn [bind] in H; try discriminate. destruct (ppe_solve _ _ _ _); cbn [bind] in H; try discriminate. now inv H. }
      apply GB in HC, HC'. clear GB.
      match goal with H : setBoundaryCondition det _ = Ok c3 |- _ => destruct (conditions_linked e det _ _ _ L H) as (A & EA & LA) end.
      match goal with H : setBoundaryCondition det c2' = Ok c3' |- _ => rewrite H in EA end. injection EA as <-. exact LA.
    - binds HC. binds HC'. inv HC. inv HC'. exact L. }
  assert (UM : used_searcher (s_reMax (m_settings m)) (s_domain (m_settings m)) (List.length c) n2).
  { eapply collide_searcher; [|exact E0]. eapply move_searcher; [|exact E]. apply SM. }
  assert (UR : used_searcher (s_reMax (m_settings r)) (s_domain (m_settings r)) (List.length c') u2).
  { eapply collide_searcher; [|exact M2]. eapply move_searcher; [|exact M1]. apply SR. }
  assert (AC1 : apart c1) by (eapply SP; eauto). assert (AC1' := apart_linked _ _ LC1 AC1).
  assert (DC : forall p, In p c -> 0 < p_dens p).
  { eapply dens_kept; [|exact DN]. eapply Forall2_trans; [apply same_id_trans|eapply move_ids; exact E|eapply collided_ids; exact E0]. }
  assert (DC' : forall p, In p c' -> 0 < p_dens p).
  { intros p I. apply In_nth_error in I. destruct I as (i & P). change (0 < p_dens (carry e p)). apply DC. eapply nth_error_In. apply (proj2 (l_piece _ _ _ LC)). exact P. }
  destruct (pressure_pressed S1 m _ c _ c1 w _ RM X1 SN UM (l_W _ _ _ LC) DC HS AC1 E1) as (_ & PM & _ & _ & _ & MV).
  assert (SN' : sensible (m_calc r) (s_reMax (m_settings r))) by (rewrite <- EK, <- ES; exact SN).
  destruct (pressure_pressed S2 r _ c' _ c1' w' _ RR X2 SN' UR (l_A _ _ _ LC) DC' M3 AC1' E3) as (_ & PR & _ & _ & AW' & MV'). rewrite <- EK, <- ES in PR.
  destruct (assign_nth _ _ _ (l_W _ _ _ L3) HA) as (LW & NW). destruct (assign_nth _ _ _ (l_A _ _ _ L3) HA') as (LA & NA).
  assert (PT : part e w w').
  { split; [rewrite LA; apply L3|]. intros i p' P'. destruct (nth_error c3' i) as [p|] eqn:P; [|apply nth_error_None in P; assert (i < List.length w')%nat by (apply nth_error_Some; congruence); lia].
    destruct (NA i p P) as (v & _ & V). rewrite V in P'. injection P' as <-. destruct (NW (e i) _ (proj2 (l_piece _ _ _ L3) i p P)) as (v' & _ & V'). eexists. split; [exact V'|]. cbn. auto. }
  assert (LN : List.length (m_ps r) = List.length w').
  { apply Forall2_length in MV'. rewrite <- MV', (setNeighbors_length _ _ _ _ M3). eapply eq_trans; [eapply Forall2_length, move_ids; exact M1|eapply Forall2_length, collided_ids; exact M2]. }
  destruct NR as (_ & _ & F3). specialize (F3 _ _ _ _ E E0). rewrite LN in F3.
  assert (FAR := far_searched _ _ _ _ _ _ _ _ UM HS MV F3).
  assert (DW' : forall i p, nth_error w' i = Some p -> p_type p <> Ghost -> 0 < p_dens p).
  { intros i p P _. destruct (Forall2_nth_r _ _ _ _ _ MV' P) as (p1 & P1 & ((_ & _ & _ & DD) & _)). rewrite DD.
    eapply dens_kept; [eapply search_same_id; exact M3|exact DC'|eapply nth_error_In; exact P1]. }
  assert (EQ := pressed_part e (m_calc m) (s_reMax (m_settings m)) w w' PT FAR PM PR SN PC AW' DW').
  assert (XY : forall i, (i < List.length c3')%nat -> nth_error x' i = nth_error x (e i)).
  { intros i I. destruct (nth_error c3' i) as [p|] eqn:P; [|apply nth_error_None in P; lia]. destruct (NA i p P) as (v & V1 & V). destruct (NW (e i) _ (proj2 (l_piece _ _ _ L3) i p P)) as (v' & V1' & V').
    specialize (EQ i _ _ V V'). cbn in EQ. change (@num Rnum) with R in *. rewrite V1, V1'. now rewrite EQ. }
  destruct (assign_linked e x x' _ _ _ L3 XY HA) as (A3 & XA & L4). rewrite XA in HA'. injection HA' as <-.
  destruct (correct_linked e m r _ _ _ SS L4 E2) as (A4 & X4 & L5). rewrite X4 in E4. injection E4 as <-.
  split; [|apply L5]. unfold same_setup. cbn. auto 8.
Qed.

Lemma group_step_both (S1 S2 : @solver Rnum) (m r m' r' : @mps Rnum) : ready m -> ready r -> exact_solver S1 -> exact_solver S2 -> sensible (m_calc m) (s_reMax (m_settings m)) -> positive_compress (m_calc m) ->
  (forall p, In p (m_ps m) -> 0 < p_dens p) -> same_setup m r -> group e (m_ps m) (m_ps r) -> never_reached e (List.length (m_ps r)) m -> spread m ->
  stepForward S1 m = Ok m' -> stepForward S2 r = Ok r' -> same_setup m' r' /\ same_group e (m_ps m') (m_ps r').
Proof.
  intros RM RR X1 X2 SN PC DN SS G NR SP HM HR. pose proof RM as (SM & RM'). pose proof RR as (SR & RR').
  destruct (base_step_m m SM S1 m' HM) as (m1 & H1 & A1 & B1). destruct (base_back_r e m r SM SR G S2 r' HR) as (r1 & H2 & A2 & B2).
  assert (K : sub_machine e m1 r1).
  { eapply (step_both S1 S2 _ _ _ _ (conj (base_m m SM) RM') (conj (base_r e m r SM SR G) RR')); eauto.
    - intros p I. apply in_map_iff in I. destruct I as (q & <- & I). cbn. now apply DN.
    - now apply base_sub.
    - now apply base_never.
    - eapply spread_alike; [exact SM|apply base_m; exact SM|apply with_setup|apply cleared_alike|exact SP]. }
  destruct K as (SB & PCE). split; [eapply setup_trans3; eauto|eapply result_group; eauto].
Qed.
Lemma group_run_both (S1 S2 : @solver Rnum) k (m r m' r' : @mps Rnum) : ready m -> ready r -> exact_solver S1 -> exact_solver S2 -> sensible (m_calc m) (s_reMax (m_settings m)) -> positive_compress (m_calc m) ->
  (forall p, In p (m_ps m) -> 0 < p_dens p) -> same_setup m r -> group e (m_ps m) (m_ps r) ->
  (forall j mj, (j < k)%nat -> steps S1 j m mj -> never_reached e (List.length (m_ps r)) mj /\ spread mj) ->
  steps S1 k m m' -> steps S2 k r r' -> same_setup m' r' /\ group e (m_ps m') (m_ps r') /\ ((0 < k)%nat -> same_group e (m_ps m') (m_ps r')).
Proof.
  intros RM RR X1 X2 SN PC DN SS G NR HM. revert r' NR. induction HM as [m|k m m1 m2 HM IH HS]; intros r' NR HR.
  - inversion HR; subst. split; [exact SS|]. split; [exact G|lia].
  - inversion HR as [|k0 a r1 r2 HR1 HR2]; subst. destruct (IH RM SN PC DN SS G r1 (fun j mj L => NR j mj (Nat.lt_lt_succ_r _ _ L)) HR1) as (SS1 & G1 & _).
    assert (ST : forall (S : @solver Rnum) k m m1, steps S k m m1 -> m_settings m1 = m_settings m /\ m_calc m1 = m_calc m /\ (ready m -> ready m1) /\ Forall2 same_id (m_ps m) (m_ps m1)).
    { clear. intros S k m m1 H. induction H as [m|k m m1 m2 H IH HS]; [split; [reflexivity|]; split; [reflexivity|]; split; [auto|apply Forall2_same; apply same_id_refl]|]. destruct (step_static _ _ _ HS) as (A & _ & B & _). destruct IH as (I1 & I2 & I3 & I4). split; [congruence|]. split; [congruence|]. split; [intros R; eapply step_ready; [|exact HS]; auto|].
      eapply Forall2_trans; [apply same_id_trans|exact I4|eapply step_same_id; exact HS]. }
    destruct (ST _ _ _ _ HM) as (E1 & E2 & E3 & E4). destruct (ST _ _ _ _ HR1) as (_ & _ & F3 & F4).
    destruct (NR k m1 ltac:(lia) HM) as (N1 & N2).
    assert (Q : same_setup m2 r' /\ same_group e (m_ps m2) (m_ps r')).
    { apply (group_step_both S1 S2 m1 r1 m2 r'); auto; try (rewrite ?E1, ?E2; assumption).
      - eapply dens_kept; eauto.
      - rewrite <- (Forall2_length _ _ _ F4). exact N1. }
    destruct Q as (Q1 & Q2). split; [exact Q1|]. split; [apply Q2|]. intros _. exact Q2.
Qed.
End RunR.
Lemma group_run_R e S1 S2 k (m r m' : @mps Rnum) n0 c : ready m -> sound r -> same_setup m r -> group e (m_ps m) (m_ps r) -> m_calc m = Explicit n0 c ->
  (forall j mj, (j < k)%nat -> steps S1 j m mj -> never_reached e (List.length (m_ps r)) mj) -> steps S1 k m m' ->
  exists r', steps S2 k r r' /\ same_setup m' r' /\ group e (m_ps m') (m_ps r') /\ ((0 < k)%nat -> same_group e (m_ps m') (m_ps r')).
Proof. intros RM. apply group_run; [|apply RM]. apply searchable_R; [now apply ready_reMax|apply RM]. Qed.
