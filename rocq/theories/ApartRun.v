(** * A group of particles among others that stay out of reach: steps and runs (C83) *)
From Coq Require Import PeanoNat.
From Verif Require Import StepFacts NeighborProps ExplicitFacts ResumeFacts SafetyFacts.
From Verif Require Export ApartStep.
Open Scope Z_scope.

Section Run.
Context {N : Num}.
Variable e : nat -> nat.
Notation linked := (linked e).
Notation piece := (piece e).
Notation lift := (lift e).
Notation carry := (carry e).

(** the group cut out of W, keeping the numbers of A; nobody has neighbours *)
Definition cleared (W : list particle) : list particle := map (fun p => set_nbrs p []) W.
Definition member (W : list particle) (p : particle) : particle :=
  match nth_error W (e (Z.to_nat (p_id p))) with
  | Some q => mkP (p_id p) (p_type q) (p_fluidType q) (p_pos q) (p_vel q) (p_acc q) (p_press q) (p_nd q) (p_dens q) (p_bc q) (p_src q) (p_minp q) []
  | None => p end.
Definition cut (W A : list particle) : list particle := map (member W) A.

Lemma cut_piece W A : group e W A -> indexed W -> indexed A -> piece (cleared W) (cut W A).
Proof.
  intros (R & G) IW IA. split; [unfold cut; rewrite map_length; exact R|]. intros i p' P'. unfold cut in P'. rewrite BaseFacts.nth_error_map in P'. destruct (nth_error A i) as [p|] eqn:P; [|discriminate]. injection P' as <-.
  destruct (G i p P) as (q & Q & _). unfold member, cleared. rewrite (IA i p P), Nat2Z.id, BaseFacts.nth_error_map, Q. cbn [option_map]. unfold ApartFacts.carry, set_nbrs. cbn. rewrite Nat2Z.id, <- (IW (e i) q Q). reflexivity.
Qed.
Lemma cut_alike W A : group e W A -> indexed A -> Forall2 alike A (cut W A).
Proof.
  intros (R & G) IA. apply Forall2_of_nth; [unfold cut; now rewrite map_length|]. intros i p p' P P'. unfold cut in P'. rewrite BaseFacts.nth_error_map, P in P'. injection P' as <-.
  destruct (G i p P) as (q & Q & T & X & V & D). unfold member. rewrite (IA i p P), Nat2Z.id, Q. unfold alike. cbn. rewrite (IA i p P). auto.
Qed.
Lemma cleared_alike W : Forall2 alike W (cleared W).
Proof. apply Forall2_of_nth; [unfold cleared; now rewrite map_length|]. intros i p p' P P'. unfold cleared in P'. rewrite BaseFacts.nth_error_map, P in P'. injection P' as <-. unfold alike. cbn. auto. Qed.
Lemma alike_indexed A B : Forall2 alike A B -> indexed A -> indexed B.
Proof. intros F I i q Q. destruct (Forall2_nth_r _ _ _ _ _ F Q) as (p & P & X). rewrite <- (I i p P). symmetry. apply X. Qed.
Lemma cleared_rest W : at_rest W -> at_rest (cleared W).
Proof. intros R p' I. apply in_map_iff in I. destruct I as (p & <- & I). cbn. now apply R. Qed.
Lemma cut_rest W A : at_rest W -> at_rest A -> at_rest (cut W A).
Proof.
  intros RW RA p' I. apply in_map_iff in I. destruct I as (p & <- & I). unfold member. destruct (nth_error W _) as [q|] eqn:Q; [cbn; apply RW; eauto using nth_error_In|now apply RA].
Qed.
Lemma with_sound m ps : sound m -> Forall2 alike (m_ps m) ps -> at_rest ps -> sound (with_ps m ps).
Proof. intros (I & _ & U) F R. split; [eapply alike_indexed; eauto|]. split; [exact R|]. cbn. rewrite <- (Forall2_length _ _ _ F). exact U. Qed.
Lemma with_setup m ps : same_setup m (with_ps m ps). Proof. unfold same_setup. cbn. auto 8. Qed.

(** the stages before the pressures of machines that are alike *)
Definition alike_pos (p q : particle) : Prop := p_type p = p_type q /\ p_pos p = p_pos q.
Lemma stages_tied m r : sound m -> sound r -> same_setup m r -> Forall2 alike (m_ps m) (m_ps r) ->
  agree (fun x y => tied2 (mkF true false false false false) (fst x) (fst y) /\ tied2 (mkF true false false false false) (snd x) (snd y))
    (x <- stepMove m ;; y <- stepCollide m (fst x) (snd x) ;; Ok (x, y)) (x <- stepMove r ;; y <- stepCollide r (fst x) (snd x) ;; Ok (x, y)) /\
  agree (tied2 (mkF true false false false false)) (stepMove m) (stepMove r).
Proof.
  intros (IM & AM & UM) (IR & AR & UR) (ES & EG & E1 & E2 & E3 & EC) L.
  assert (L0 : Forall2 (like (mkF false false false false false)) (m_ps m) (m_ps r)).
  { apply Forall2_of_nth; [symmetry; eapply Forall2_length; eauto|]. intros i p q P Q. destruct (BaseFacts.Forall2_nth _ _ _ _ _ L P) as (q' & Q' & X). rewrite Q in Q'. injection Q' as <-.
    destruct X as (? & ? & ? & ? & ?). unfold like. cbn. split.
    - repeat split; auto. assert (p_acc p = vzero) by (eapply AM; eauto using nth_error_In). assert (p_acc q = vzero) by (eapply AR; eauto using nth_error_In). congruence.
    - repeat split; discriminate. }
  assert (NS : setNeighbors (m_ns m) (m_ps r) = setNeighbors (m_ns r) (m_ps r)).
  { apply (search_history (s_reMax (m_settings r)) (s_domain (m_settings r))); auto. rewrite <- ES, <- (Forall2_length _ _ _ L). exact UM. }
  assert (MV : agree (tied2 (mkF true false false false false)) (stepMove m) (stepMove r)).
  { unfold stepMove. rewrite <- NS, <- ES, <- EG, <- E3. eapply agree_bind; [apply (setNeighbors_agree _ _ _ _ L0)|]. intros [n1 p1] [n1' q1] (N1 & P1). cbn [fst snd] in N1, P1. subst n1'.
    eapply agree_bind; [apply visc_agree; [|apply gravity_agree; exact P1]; reflexivity|]. intros p2 q2 P2. simpl. split; [reflexivity|]. cbn [snd]. now apply move_agree. }
  split; [|exact MV].
  eapply agree_bind; [exact MV|]. intros [n1 p1] [n1' q1] (N1 & P1). cbn [fst snd] in N1, P1. subst n1'. cbn [fst snd].
  eapply agree_bind with (R := tied2 (mkF true false false false false)).
  { unfold stepCollide. rewrite <- ES. eapply agree_bind; [apply (setNeighbors_agree _ _ _ _ P1)|]. intros [n2 p2] [n2' q2] (N2 & P2). cbn [fst snd] in N2, P2. subst n2'.
    eapply agree_bind; [apply collision_agree; [|exact P2]; reflexivity|]. intros p3 q3 P3. split; [reflexivity|exact P3]. }
  intros [n2 p2] [n2' q2] (N2 & P2). cbn [fst snd] in N2, P2. subst n2'. simpl. split; split; cbn [fst snd]; auto.
Qed.
Lemma like_pos F ps qs : Forall2 (like F) ps qs -> Forall2 alike_pos ps qs.
Proof. apply Forall2_impl. intros p q (A & _). unfold alike_pos. split; apply A. Qed.
Lemma stages_agree m r : sound m -> sound r -> same_setup m r -> Forall2 alike (m_ps m) (m_ps r) ->
  agree (fun x y => Forall2 alike_pos (snd (fst x)) (snd (fst y)) /\ Forall2 alike_pos (snd (snd x)) (snd (snd y)))
    (x <- stepMove m ;; y <- stepCollide m (fst x) (snd x) ;; Ok (x, y)) (x <- stepMove r ;; y <- stepCollide r (fst x) (snd x) ;; Ok (x, y)) /\
  agree (fun x y => Forall2 alike_pos (snd x) (snd y)) (stepMove m) (stepMove r).
Proof.
  intros SM SR SS L. destruct (stages_tied m r SM SR SS L) as (A & B). split; (eapply agree_impl; [eassumption|]).
  - intros x y ((_ & X) & (_ & Y)). split; eapply like_pos; eauto.
  - intros x y (_ & X). eapply like_pos; eauto.
Qed.
(** and the search before the pressures, going back from r to m *)
Lemma searched_back m r n1 b n2 c n3 c1 : sound m -> sound r -> same_setup m r -> Forall2 alike (m_ps m) (m_ps r) ->
  stepMove r = Ok (n1, b) -> stepCollide r n1 b = Ok (n2, c) -> setNeighbors n2 c = Ok (n3, c1) ->
  exists u1 b' u2 c' u3 c1', stepMove m = Ok (u1, b') /\ stepCollide m u1 b' = Ok (u2, c') /\ setNeighbors u2 c' = Ok (u3, c1') /\ Forall2 alike_pos c1' c1.
Proof.
  intros SM SR SS L H1 H2 H3. destruct (stages_tied m r SM SR SS L) as (A & _).
  assert (H : (x <- stepMove r ;; y <- stepCollide r (fst x) (snd x) ;; Ok (x, y)) = Ok ((n1, b), (n2, c))) by (rewrite H1; cbn [bind fst snd]; rewrite H2; reflexivity).
  destruct (agree_ok_r _ _ _ _ A H) as ([[a1 b0] [a2 c0]] & H0 & _ & (X1 & X2)). cbn [fst snd] in X1, X2. subst a2.
  destruct (stepMove m) as [[a3 b3]| | | | |] eqn:M1; cbn [bind fst snd] in H0; try discriminate. destruct (stepCollide m a3 b3) as [[a4 c4]| | | | |] eqn:M2; cbn [bind] in H0; try discriminate. injection H0 as -> -> -> ->.
  destruct (agree_ok_r _ _ _ _ (setNeighbors_agree _ n2 _ _ X2) H3) as ([u3 c1'] & H4 & (Y1 & Y2)). cbn [fst snd] in Y1, Y2. exists a1, b0, n2, c0, u3, c1'. split; [reflexivity|]. split; [exact M2|]. split; [exact H4|]. eapply like_pos; eauto.
Qed.
Lemma reach_alike re d n W W' : Forall2 alike_pos W W' -> out_of_reach re d e n W -> out_of_reach re d e n W'.
Proof.
  intros F H i j p q I ST P Q LP LQ. destruct (Forall2_nth_r _ _ _ _ _ F P) as (p0 & P0 & T0 & X0). destruct (Forall2_nth_r _ _ _ _ _ F Q) as (q0 & Q0 & T1 & X1).
  unfold separation. rewrite <- X0, <- X1. apply (H i j p0 q0); auto; unfold present; [rewrite T0, X0|rewrite T1, X1]; assumption.
Qed.
Lemma never_alike n m r : sound m -> sound r -> same_setup m r -> Forall2 alike (m_ps m) (m_ps r) -> never_reached e n m -> never_reached e n r.
Proof.
  intros SM SR SS L (A & B & C). pose proof SS as (ES & _). destruct (stages_agree m r SM SR SS L) as (G1 & G2). unfold never_reached. rewrite <- ES. split; [|split].
  - eapply reach_alike; [|exact A]. eapply Forall2_impl; [|exact L]. intros p q X. split; apply X.
  - intros n1 b H. destruct (agree_ok_r _ _ _ _ G2 H) as ([n0 b0] & H0 & X). cbn [snd] in X. eapply reach_alike; [exact X|]. eapply B; eauto.
  - intros n1 b n2 c H1 H2. assert (H : (x <- stepMove r ;; y <- stepCollide r (fst x) (snd x) ;; Ok (x, y)) = Ok ((n1, b), (n2, c))) by (rewrite H1; cbn [bind fst snd]; rewrite H2; reflexivity).
    destruct (agree_ok_r _ _ _ _ G1 H) as ([[a1 b0] [a2 c0]] & H0 & _ & X). cbn [snd] in X. eapply reach_alike; [exact X|].
    destruct (stepMove m) as [[a3 b3]| | | | |] eqn:M1; cbn [bind fst snd] in H0; try discriminate. destruct (stepCollide m a3 b3) as [[a4 c4]| | | | |] eqn:M2; cbn [bind] in H0; try discriminate. injection H0 as -> -> -> ->. eapply C; eauto.
Qed.
Lemma result_group W W0 A A0 : Forall2 same_result W W0 -> Forall2 same_result A A0 -> piece W0 A0 -> same_group e W A.
Proof.
  intros FW FA (R & PC). assert (LA := Forall2_length _ _ _ FA).
  assert (K : forall i p, nth_error A i = Some p -> exists q p0, nth_error W (e i) = Some q /\ same_result p p0 /\ same_result q (carry p0)).
  { intros i p P. destruct (BaseFacts.Forall2_nth _ _ _ _ _ FA P) as (p0 & P0 & X). destruct (Forall2_nth_r _ _ _ _ _ FW (PC i p0 P0)) as (q & Q & Y). eauto. }
  split.
  - split; [rewrite LA; exact R|]. intros i p P. destruct (K i p P) as (q & p0 & Q & ((_ & A1 & A2 & A3 & A4) & _) & ((_ & B1 & B2 & B3 & B4) & _)). cbn in *. exists q. split; [exact Q|]. repeat split; congruence.
  - intros i p q P Q. destruct (K i p P) as (q' & p0 & Q' & ((_ & T & _) & A1 & A2 & A3 & A4 & A5) & ((_ & T' & _) & B1 & B2 & B3 & B4 & B5)). assert (q' = q) by congruence. subst q'. cbn in *.
    repeat (split; [congruence|]). intros G. rewrite (A5 G). apply B5. congruence.
Qed.
Lemma group_weak W A : same_group e W A -> group e W A. Proof. intros H. apply H. Qed.

(** ** one step *)
Section OneStep.
Variables (m r : mps).
Hypothesis SM : sound m.
Hypothesis SR : sound r.
Hypothesis SS : same_setup m r.
Hypothesis G : group e (m_ps m) (m_ps r).
Let m0 := with_ps m (cleared (m_ps m)).
Let r0 := with_ps r (cut (m_ps m) (m_ps r)).
Lemma base_m : sound m0. Proof. apply with_sound; [exact SM|apply cleared_alike|apply cleared_rest, SM]. Qed.
Lemma base_r : sound r0. Proof. apply with_sound; [exact SR|apply cut_alike; [exact G|apply SR]|apply cut_rest; [apply SM|apply SR]]. Qed.
Lemma base_setup : same_setup m0 r0. Proof. destruct SS as (A & B & C & D & E & F). unfold same_setup. cbn. auto 8. Qed.
Lemma base_sub : sub_machine e m0 r0. Proof. split; [exact base_setup|]. apply cut_piece; [exact G|apply SM|apply SR]. Qed.
Lemma base_len : List.length (m_ps r0) = List.length (m_ps r). Proof. cbn. unfold cut. apply map_length. Qed.
Lemma base_never : never_reached e (List.length (m_ps r)) m -> never_reached e (List.length (m_ps r0)) m0.
Proof. rewrite base_len. apply never_alike; [exact SM|exact base_m|apply with_setup|apply cleared_alike]. Qed.
Lemma base_step_m S m' : stepForward S m = Ok m' -> exists m1, stepForward S m0 = Ok m1 /\ same_setup m' m1 /\ Forall2 same_result (m_ps m') (m_ps m1).
Proof. intros H. destruct (agree_ok _ _ _ _ (step_agree S m m0 SM base_m (with_setup _ _) (cleared_alike _)) H) as (m1 & H1 & A & _ & _ & _ & B & _). eauto. Qed.
Lemma base_step_r S r1 : stepForward S r0 = Ok r1 -> exists r', stepForward S r = Ok r' /\ same_setup r' r1 /\ Forall2 same_result (m_ps r') (m_ps r1).
Proof. intros H. destruct (agree_ok_r _ _ _ _ (step_agree S r r0 SR base_r (with_setup _ _) (cut_alike _ _ G (proj1 SR))) H) as (r' & H1 & A & _ & _ & _ & B & _). eauto. Qed.
Lemma base_back_r S r' : stepForward S r = Ok r' -> exists r1, stepForward S r0 = Ok r1 /\ same_setup r' r1 /\ Forall2 same_result (m_ps r') (m_ps r1).
Proof. intros H. destruct (agree_ok _ _ _ _ (step_agree S r r0 SR base_r (with_setup _ _) (cut_alike _ _ G (proj1 SR))) H) as (r1 & H1 & A & _ & _ & _ & B & _). eauto. Qed.
Lemma setup_trans3 m' m1 r' r1 : same_setup m' m1 -> same_setup m1 r1 -> same_setup r' r1 -> same_setup m' r'.
Proof. unfold same_setup. intuition congruence. Qed.

Lemma group_step S1 S2 m' n0 c : searchable (s_reMax (m_settings m)) (s_domain (m_settings m)) -> never_reached e (List.length (m_ps r)) m -> m_calc m = Explicit n0 c ->
  stepForward S1 m = Ok m' -> exists r', stepForward S2 r = Ok r' /\ same_setup m' r' /\ same_group e (m_ps m') (m_ps r').
Proof.
  intros OKS NR EX H. destruct (base_step_m _ _ H) as (m1 & H1 & A1 & B1).
  destruct (step_explicit e S1 S2 m0 r0 m1 n0 c OKS base_m base_r base_sub (base_never NR) EX H1) as (r1 & H2 & (SB & PC) & _).
  destruct (base_step_r _ _ H2) as (r' & H3 & A3 & B3). exists r'. split; [exact H3|]. split; [eapply setup_trans3; eauto|eapply result_group; eauto].
Qed.
End OneStep.

(** ** runs *)
Lemma group_run S1 S2 k m r m' n0 c : searchable (s_reMax (m_settings m)) (s_domain (m_settings m)) -> sound m -> sound r -> same_setup m r -> group e (m_ps m) (m_ps r) -> m_calc m = Explicit n0 c ->
  (forall j mj, (j < k)%nat -> steps S1 j m mj -> never_reached e (List.length (m_ps r)) mj) -> steps S1 k m m' ->
  exists r', steps S2 k r r' /\ same_setup m' r' /\ group e (m_ps m') (m_ps r') /\ ((0 < k)%nat -> same_group e (m_ps m') (m_ps r')).
Proof.
  intros OKS SM SR SS G EX NR H. revert NR. induction H as [m|k m m1 m2 H IH HS]; intros NR.
  - exists r. split; [constructor|]. split; [exact SS|]. split; [exact G|lia].
  - destruct (IH OKS SM SS G EX (fun j mj L => NR j mj (Nat.lt_lt_succ_r _ _ L))) as (r1 & R1 & SS1 & G1 & _).
    assert (ST : m_settings m1 = m_settings m /\ m_calc m1 = m_calc m).
    { clear - H. induction H as [m|k m m1 m2 H IH HS]; [auto|]. destruct (step_static _ _ _ HS) as (A & _ & B & _). destruct IH. split; congruence. }
    destruct ST as (ES & EK). rewrite <- ES in OKS. assert (NL : List.length (m_ps r1) = List.length (m_ps r)).
    { clear - R1. induction R1 as [r|k r r1 r2 H IH HS]; [reflexivity|]. rewrite <- IH. apply step_same_id, Forall2_length in HS. now symmetry. }
    destruct (group_step m1 r1 (steps_sound _ _ _ _ H SM) (steps_sound _ _ _ _ R1 SR) SS1 G1 S1 S2 m2 n0 c OKS) as (r2 & R2 & SS2 & G2); [rewrite NL; apply (NR k); [lia|exact H]|congruence|exact HS|].
    exists r2. split; [econstructor; eauto|]. split; [exact SS2|]. split; [apply G2|]. intros _. exact G2.
Qed.
End Run.
