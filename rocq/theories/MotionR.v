(** * Prediction stage in exact arithmetic: viscosity and motion (C17, C19) *)
From Coq Require Import Reals Lra PeanoNat Permutation.
From Verif Require Export StepFacts WeightR.
Open Scope R_scope.
#[local] Remove Hints F64 : typeclass_instances.

Lemma vec_ext (a b : vecR) : vx a = vx b -> vy a = vy b -> vz a = vz b -> a = b.
Proof. destruct a, b; simpl; congruence. Qed.
Ltac vec_ring := apply vec_ext; simpl; ringR.

Lemma foldM_vadd {A} (f : A -> vecR -> outcome vecR) (h : A -> vecR) l a :
  (forall nb acc, In nb l -> f nb acc = Ok (vadd acc (h nb))) -> foldM f l a = Ok (addR a (vsum (map h l))).
Proof.
  revert a. induction l as [|nb l IH]; intros a H; simpl.
  - f_equal. apply vec_ext; simpl; ringR.
  - rewrite H by (simpl; auto). simpl. rewrite IH by (intros; apply H; simpl; auto). f_equal. apply vec_ext; simpl; ringR.
Qed.

(** a vector sum over a neighbour list is a sum over all particles in range *)
Lemma listed_vsum re ps i p (F : nat -> partR -> vecR) : listed re ps -> nth_error ps i = Some p -> p_type p <> Ghost ->
  vsum (map (fun nb => match nth_error ps (Z.to_nat (nb_id nb)) with Some q => F (Z.to_nat (nb_id nb)) q | None => zeroR end) (p_nbrs p)) =
  sumv ps i (fun j q => if Rlt_dec (euclid (p_pos p) (p_pos q)) re then F j q else zeroR).
Proof.
  intros L Hp Tp.
  assert (K : forall c : vecR -> R, c zeroR = 0 ->
    rsum (map (fun nb => c (match nth_error ps (Z.to_nat (nb_id nb)) with Some q => F (Z.to_nat (nb_id nb)) q | None => zeroR end)) (p_nbrs p)) =
    sum_others ps i (fun j q => c (if Rlt_dec (euclid (p_pos p) (p_pos q)) re then F j q else zeroR))).
  { intros c Hc. rewrite <- (rsum_ext (fun nb => match nth_error ps (Z.to_nat (nb_id nb)) with Some q => c (F (Z.to_nat (nb_id nb)) q) | None => 0 end)).
    - rewrite (listed_sum re ps i p (fun j q => c (F j q)) L Hp Tp). unfold sum_others. apply rsum_ext. intros j _.
      destruct (nth_error ps j) as [q|]; auto. destruct (_ || _); auto. destruct (Rlt_dec _ _); auto.
    - intros nb _. destruct (nth_error ps (Z.to_nat (nb_id nb))); auto. }
  unfold vsum, sumv. rewrite !map_map. f_equal; apply K; reflexivity.
Qed.

Lemma sum_others_ext ps i f g : (forall j q, nth_error ps j = Some q -> j <> i -> p_type q <> Ghost -> f j q = g j q) ->
  sum_others ps i f = sum_others ps i g.
Proof.
  intros H. unfold sum_others. apply rsum_ext. intros j _. destruct (nth_error ps j) as [q|] eqn:E; auto.
  destruct (Nat.eqb_spec j i), (Z.eqb_spec (p_type q) Ghost); simpl; auto.
Qed.
Lemma sumv_ext ps i f g : (forall j q, nth_error ps j = Some q -> j <> i -> p_type q <> Ghost -> f j q = g j q) ->
  sumv ps i f = sumv ps i g.
Proof. intros H. unfold sumv. f_equal; apply sum_others_ext; intros; now rewrite H. Qed.

Lemma listed_get re ps i p nb : listed re ps -> nth_error ps i = Some p -> p_type p <> Ghost -> In nb (p_nbrs p) ->
  exists j q, nb_id nb = Z.of_nat j /\ vget ps (nb_id nb) = Ok q /\ nth_error ps j = Some q /\ j <> i /\ p_type q <> Ghost /\
    nb_dist nb = euclid (p_pos p) (p_pos q) /\ euclid (p_pos p) (p_pos q) < re.
Proof.
  intros L Hp Tp H. destruct (listed_entry re ps i p nb L Hp Tp H) as (j & q & A & B & C & D & E & F).
  exists j, q. repeat split; auto. unfold vget. rewrite A, Nat2Z.id, B. destruct (Z.ltb_spec (Z.of_nat j) 0); [lia|reflexivity].
Qed.

(** the viscous term of one particle; re is both the argument and the setting (mps.cpp:37) *)
Lemma visc_value (s : @settings Rnum) rv rs ps i p : listed rs ps -> apart ps -> s_reL s <= rs -> nth_error ps i = Some p -> p_type p = Fluid ->
  @calViscosity1 Rnum s rv (s_reL s) ps p = Ok (set_acc p (addR (p_acc p) (scaleR (visc_coeff s rv) (shear (s_reL s) ps i p)))).
Proof.
  intros L A Hr Hp Tp. assert (TG : p_type p <> Ghost) by (rewrite Tp; discriminate).
  unfold calViscosity1. rewrite (proj2 (is_type_eq _ _) Tp). simpl negb. cbv iota.
  rewrite (foldM_vadd _ (fun nb => match nth_error ps (Z.to_nat (nb_id nb)) with
      | Some q => scaleR (w_spec (s_reL s) (euclid (p_pos p) (p_pos q))) (diffR (p_vel q) (p_vel p)) | None => zeroR end)).
  - rewrite (listed_vsum rs ps i p (fun _ q => scaleR (w_spec (s_reL s) (euclid (p_pos p) (p_pos q))) (diffR (p_vel q) (p_vel p))) L Hp TG).
    rewrite (sumv_ext ps i _ (fun _ q => scaleR (w_spec (s_reL s) (euclid (p_pos p) (p_pos q))) (diffR (p_vel q) (p_vel p)))).
    + simpl bind. f_equal. f_equal. unfold shear. apply vec_ext; simpl; ringR.
    + intros j q Hq N Tq. destruct (Rlt_dec _ _); auto. rewrite w_out by lra. apply vec_ext; simpl; ringR.
  - intros nb acc Hin. destruct (listed_get rs ps i p nb L Hp TG Hin) as (j & q & E1 & E2 & E3 & N & Tq & E4 & E5).
    unfold visc_term. rewrite E2. cbn [bind]. rewrite E1, Nat2Z.id, E3.
    assert (P : 0 < nb_dist nb) by exact (listed_dist_pos rs ps i p nb L A Hp TG Hin).
    simpl nlt. destruct (Rlt_bool_spec (nb_dist nb) (s_reL s)) as [Hl|Hl].
    + rewrite weight_R by auto. cbn [bind]. f_equal. rewrite E4. apply vec_ext; simpl; ringR.
    + f_equal. rewrite w_out by (rewrite <- E4; auto). apply vec_ext; simpl; ringR.
Qed.

Lemma calViscosity_R (s : @settings Rnum) rv rs ps : listed rs ps -> apart ps -> s_reL s <= rs ->
  exists ps', @calViscosity Rnum s rv (s_reL s) ps = Ok ps' /\
    List.length ps' = List.length ps /\
    forall i p, nth_error ps i = Some p -> exists p', nth_error ps' i = Some p' /\
      (p_type p <> Fluid -> p' = p) /\
      (p_type p = Fluid -> p' = set_acc p (addR (p_acc p) (scaleR (visc_coeff s rv) (shear (s_reL s) ps i p)))).
Proof.
  intros L A Hr. rewrite calViscosity_mapM.
  assert (T : exists ps', mapM (@calViscosity1 Rnum s rv (s_reL s) ps) ps = Ok ps').
  { apply mapM_total. intros p Hp. apply In_nth_error in Hp. destruct Hp as [i Hp].
    destruct (Z.eq_dec (p_type p) Fluid) as [e|n].
    - eexists. eapply visc_value; eauto.
    - exists p. unfold calViscosity1. now rewrite (proj2 (is_type_neq _ _) n). }
  destruct T as [ps' E]. exists ps'. split; auto. apply mapM_ok in E. split; [symmetry; eapply Forall2_length; eauto|].
  intros i p Hp. destruct (Forall2_nth _ _ _ _ _ E Hp) as (p' & Hp' & E'). exists p'. split; auto. split; intros T.
  - unfold calViscosity1 in E'. rewrite (proj2 (is_type_neq _ _) T) in E'. now inv E'.
  - erewrite visc_value in E' by eauto. now inv E'.
Qed.

(** C19: uniform flow *)
Lemma C19_uniform_lemma (s : @settings Rnum) rv rs ps v : listed rs ps -> apart ps -> s_reL s <= rs ->
  (forall p, In p ps -> p_type p <> Ghost -> p_vel p = v) -> @calViscosity Rnum s rv (s_reL s) ps = Ok ps.
Proof.
  intros L A Hr U. destruct (calViscosity_R s rv rs ps L A Hr) as (ps' & E & Ln & H). rewrite E. f_equal.
  apply nth_error_ext_eq. intros i. destruct (nth_error ps i) as [p|] eqn:Hp.
  - destruct (H i p Hp) as (p' & -> & H1 & H2). f_equal. destruct (Z.eq_dec (p_type p) Fluid) as [e|n]; [|now apply H1].
    rewrite H2 by auto. assert (Z : shear (s_reL s) ps i p = zeroR).
    { unfold shear. rewrite (sumv_ext ps i _ (fun _ _ => zeroR)).
      - unfold sumv, sum_others. unfold zeroR. f_equal; apply rsum_zero; intros j _; destruct (nth_error ps j); auto; destruct (_ || _); auto.
      - intros j q Hq N Tq. rewrite (U q), (U p); [apply vec_ext; simpl; ringR| |rewrite e; discriminate| |auto]; eapply nth_error_In; eauto. }
    rewrite Z. destruct p. unfold set_acc; simpl. f_equal. apply vec_ext; simpl; ringR.
  - apply nth_error_None in Hp. apply nth_error_None. lia.
Qed.

(** ** C19: momentum *)
Lemma rsum_seq {A} (f : A -> R) l :
  rsum (map f l) = rsum (map (fun i => match nth_error l i with Some a => f a | None => 0 end) (seq 0 (List.length l))).
Proof.
  induction l as [|a l IH]; auto. simpl. rewrite <- seq_shift, map_map. simpl. now rewrite <- IH.
Qed.

Lemma euclid_sym x y : euclid x y = euclid y x.
Proof. unfold euclid. f_equal. ring. Qed.

Lemma antisym_sum (g : nat -> nat -> R) n : (forall i j, g i j = - g j i) ->
  rsum (map (fun i => rsum (map (g i) (seq 0 n))) (seq 0 n)) = 0.
Proof.
  intros H. assert (E := rsum_swap g (seq 0 n) (seq 0 n)).
  assert (E' : rsum (map (fun b => rsum (map (fun a => g a b) (seq 0 n))) (seq 0 n)) = - rsum (map (fun i => rsum (map (g i) (seq 0 n))) (seq 0 n))).
  { replace (- rsum (map (fun i => rsum (map (g i) (seq 0 n))) (seq 0 n))) with (-1 * rsum (map (fun i => rsum (map (g i) (seq 0 n))) (seq 0 n))) by ring.
    rewrite <- rsum_mul. apply rsum_ext. intros b _. rewrite <- rsum_mul. apply rsum_ext. intros a _. rewrite (H a b). ring. }
  lra.
Qed.

Definition drag (c : vecR -> R) (re : R) (ps : list partR) (i j : nat) : R :=
  match nth_error ps i, nth_error ps j with
  | Some p, Some q => if (p_type p =? Ghost)%Z then 0 else if Nat.eqb j i || (p_type q =? Ghost)%Z then 0
                      else w_spec re (euclid (p_pos p) (p_pos q)) * (c (p_vel q) - c (p_vel p))
  | _, _ => 0
  end.
Lemma drag_antisym c re ps i j : drag c re ps i j = - drag c re ps j i.
Proof.
  unfold drag. destruct (nth_error ps i) as [p|], (nth_error ps j) as [q|]; try ring.
  rewrite (Nat.eqb_sym i j). destruct (Nat.eqb j i), (p_type p =? Ghost)%Z, (p_type q =? Ghost)%Z; simpl; try ring.
  rewrite (euclid_sym (p_pos q)). ring.
Qed.

Lemma visc_momentum (c : vecR -> R) (s : @settings Rnum) rv rs ps ps' :
  (forall a b, c (addR a b) = c a + c b) -> (forall k a, c (scaleR k a) = k * c a) ->
  (forall i p, nth_error ps i = Some p -> c (shear (s_reL s) ps i p) =
     sum_others ps i (fun _ q => w_spec (s_reL s) (euclid (p_pos p) (p_pos q)) * (c (p_vel q) - c (p_vel p)))) ->
  listed rs ps -> apart ps -> s_reL s <= rs ->
  (forall p, In p ps -> p_type p = Fluid \/ p_type p = Ghost) ->
  @calViscosity Rnum s rv (s_reL s) ps = Ok ps' -> rsum (map c (map p_acc ps')) = rsum (map c (map p_acc ps)).
Proof.
  intros CA CS CH L A Hr F E. destruct (calViscosity_R s rv rs ps L A Hr) as (ps'' & E' & Ln & H). rewrite E in E'. inv E'.
  rewrite !map_map. rewrite (rsum_seq (fun p => c (p_acc p)) ps''), (rsum_seq (fun p => c (p_acc p)) ps), Ln.
  rewrite (rsum_ext _ (fun i => match nth_error ps i with Some a => c (p_acc a) | None => 0 end + visc_coeff s rv * rsum (map (drag c (s_reL s) ps i) (seq 0 (List.length ps))))).
  - rewrite rsum_add, rsum_mul, antisym_sum by (intros; apply drag_antisym). ring.
  - intros i _. destruct (nth_error ps i) as [p|] eqn:Hp.
    + destruct (H i p Hp) as (p' & Hp' & H1 & H2). rewrite Hp'.
      destruct (F p (nth_error_In _ _ Hp)) as [T|T].
      * rewrite H2 by auto. simpl. rewrite CA, CS, CH by auto. f_equal. f_equal.
        unfold sum_others. apply rsum_ext. intros j _. unfold drag. rewrite Hp, T. simpl.
        destruct (nth_error ps j) as [q|]; auto.
      * rewrite H1 by (rewrite T; discriminate). rewrite (rsum_zero (drag c (s_reL s) ps i)); [ring|].
        intros j _. unfold drag. rewrite Hp, T. simpl. destruct (nth_error ps j); auto.
    + apply nth_error_None in Hp as Hp2. rewrite (proj2 (nth_error_None ps'' i)) by lia.
      rewrite (rsum_zero (drag c (s_reL s) ps i)); [ring|]. intros j _. unfold drag. now rewrite Hp.
Qed.

Lemma C19_momentum_lemma (s : @settings Rnum) rv rs ps : listed rs ps -> apart ps -> s_reL s <= rs ->
  (forall p, In p ps -> p_type p = Fluid \/ p_type p = Ghost) ->
  exists ps', @calViscosity Rnum s rv (s_reL s) ps = Ok ps' /\ vsum (map p_acc ps') = vsum (map p_acc ps).
Proof.
  intros L A Hr F. destruct (calViscosity_R s rv rs ps L A Hr) as (ps' & E & _). exists ps'. split; auto.
  unfold vsum. f_equal; eapply visc_momentum; eauto; intros; reflexivity.
Qed.

(** ** the parameters *)
Lemma ready_refs m : ready m ->
  0 < rv_n0 (m_rvN m) /\ 0 < rv_n0 (m_rvG m) /\ 0 < rv_n0 (m_rvL m) /\ 0 < rv_lambda (m_rvL m).
Proof.
  intros (_ & (_ & D & L0 & N & G & L) & EN & EG & EL).
  destruct (C09_lemma (s_asserts (m_settings m)) _ _ _ D L0 (proj1 N)) as (r1 & E1 & P1 & _).
  destruct (C09_lemma (s_asserts (m_settings m)) _ _ _ D L0 (proj1 G)) as (r2 & E2 & P2 & _).
  destruct (C09_lemma (s_asserts (m_settings m)) _ _ _ D L0 (proj1 L)) as (r3 & E3 & P3 & P4 & _).
  rewrite E1 in EN. rewrite E2 in EG. rewrite E3 in EL. inv EN. inv EG. inv EL. repeat split; auto.
  apply Rlt_le_trans with (s_l0 (m_settings m) ^ 2); [|tauto]. apply pow_lt; auto.
Qed.

Lemma ready_reMax m : ready m -> 0 < s_reMax (m_settings m).
Proof. intros (_ & (_ & _ & H & H' & _) & _). lra. Qed.

Lemma newMPS_ready s ps g k m : newMPS s ps g k = Ok m -> indexed ps -> at_rest ps -> usable s -> ready m.
Proof.
  intros H I A U. assert (SD := newMPS_sound _ _ _ _ _ H I A). unfold newMPS in H. binds H. binds H. binds H. binds H. inv H.
  repeat split; auto; apply U || apply SD.
Qed.

Lemma step_ready S m m' : ready m -> stepForward S m = Ok m' -> ready m'.
Proof.
  intros (A & U & B & C & D) H. assert (SD := step_sound _ _ _ A H). destruct (step_static _ _ _ H) as (ES & EG & EK & E1 & E2 & E3).
  unfold ready. rewrite ES, E1, E2, E3. auto.
Qed.
Lemma steps_ready S n m m' : steps S n m m' -> ready m -> ready m'.
Proof. induction 1; auto. intros. eapply step_ready; [|eassumption]; auto. Qed.

(** ** C17: what the prediction stage does *)
Lemma prediction_run (m : @mps Rnum) ns ps1 : ready m -> setNeighbors (m_ns m) (m_ps m) = Ok (ns, ps1) -> apart ps1 ->
  exists ps2, stepMove m = Ok (ns, ps2) /\
    List.length ps2 = List.length ps1 /\
    let s := m_settings m in
    forall i p, nth_error ps1 i = Some p -> exists p', nth_error ps2 i = Some p' /\
      (p_type p <> Fluid -> p_type p' = p_type p /\ p_vel p' = p_vel p /\ p_pos p' = p_pos p) /\
      (p_type p = Fluid ->
         let visc := scaleR (s_nu s * (2 * IZR (s_dim s)) / (rv_n0 (m_rvL m) * rv_lambda (m_rvL m))) (shear (s_reL s) ps1 i p) in
         p_type p' = Fluid /\
         p_vel p' = addR (p_vel p) (scaleR (s_dt s) (addR (m_gravity m) visc)) /\
         p_pos p' = addR (p_pos p) (scaleR (s_dt s) (p_vel p'))).
Proof.
  intros Rd E A1. assert (RM := ready_reMax m Rd). pose proof Rd as ((I & AR & U) & (PD & D & L0 & RN & RG & RL) & _).
  assert (LI := search_listed _ _ _ _ _ _ RM PD U I E).
  assert (AR1 : forall i p, nth_error ps1 i = Some p -> p_acc p = vzero).
  { intros i p Hp. destruct (Forall2_nth_r _ _ _ _ _ (search_only _ _ _ _ _ _ U E) Hp) as (p0 & Hp0 & t & l & -> & _).
    simpl. apply AR. eapply nth_error_In; eauto. }
  set (ps1g := calGravity (m_gravity m) ps1).
  assert (P1 : Forall2 same_place ps1 ps1g) by apply calGravity_place.
  assert (EXT : map (fun p => (p_type p, p_pos p, p_nbrs p)) ps1 = map (fun p => (p_type p, p_pos p, p_nbrs p)) ps1g).
  { clear -P1. induction P1; simpl; auto. destruct H as ((? & ? & ?) & ? & _). congruence. }
  assert (LIg := listed_ext _ _ _ EXT LI).
  assert (NG : forall i p, nth_error ps1 i = Some p -> nth_error ps1g i = Some (calGravity1 (m_gravity m) p)).
  { intros i p Hp. unfold ps1g, calGravity. now rewrite BaseFacts.nth_error_map, Hp. }
  assert (SG : forall p, p_type (calGravity1 (m_gravity m) p) = p_type p /\ p_pos (calGravity1 (m_gravity m) p) = p_pos p /\ p_vel (calGravity1 (m_gravity m) p) = p_vel p).
  { intros p. unfold calGravity1. destruct (is_type p Fluid); auto. }
  assert (LG : List.length ps1g = List.length ps1) by apply map_length.
  assert (Ag : apart ps1g).
  { intros i j p q Hp Hq N Tp Tq. unfold ps1g, calGravity in Hp, Hq. rewrite BaseFacts.nth_error_map in Hp, Hq.
    destruct (nth_error ps1 i) as [p0|] eqn:Hp0; inv Hp. destruct (nth_error ps1 j) as [q0|] eqn:Hq0; inv Hq.
    destruct (SG p0) as (T1 & X1 & _), (SG q0) as (T2 & X2 & _). rewrite X1, X2. rewrite T1 in Tp. rewrite T2 in Tq. eapply (A1 i j); eauto. }
  destruct (calViscosity_R (m_settings m) (m_rvL m) _ ps1g LIg Ag (proj2 RL)) as (ps1v & EV & LV & HV).
  exists (moveParticle (m_settings m) ps1v). split.
  { unfold stepMove. rewrite E. cbn [bind]. fold ps1g. rewrite EV. reflexivity. }
  split. { unfold moveParticle. rewrite map_length. congruence. }
  intros s i p Hp. assert (Hg := NG i p Hp). destruct (HV _ _ Hg) as (pv & Hv & V1 & V2).
  exists (moveParticle1 (m_settings m) pv). split. { unfold moveParticle. now rewrite BaseFacts.nth_error_map, Hv. }
  destruct (SG p) as (T1 & X1 & W1). assert (AC := AR1 i p Hp).
  split; intros T.
  - rewrite V1 by (rewrite T1; auto). unfold moveParticle1. rewrite (proj2 (is_type_neq _ _)) by (rewrite T1; auto). simpl. auto.
  - rewrite V2 by (rewrite T1; auto).
    assert (SH : shear (s_reL (m_settings m)) ps1g i (calGravity1 (m_gravity m) p) = shear (s_reL (m_settings m)) ps1 i p).
    { assert (SO : forall c : vecR -> R,
        sum_others ps1g i (fun _ q => w_spec (s_reL (m_settings m)) (euclid (p_pos (calGravity1 (m_gravity m) p)) (p_pos q)) * c (diffR (p_vel q) (p_vel (calGravity1 (m_gravity m) p)))) =
        sum_others ps1 i (fun _ q => w_spec (s_reL (m_settings m)) (euclid (p_pos p) (p_pos q)) * c (diffR (p_vel q) (p_vel p)))).
      { intros c. unfold sum_others. rewrite LG. apply rsum_ext. intros j _. unfold ps1g, calGravity. rewrite BaseFacts.nth_error_map.
        destruct (nth_error ps1 j) as [q|]; simpl; auto. destruct (SG q) as (T2 & X2 & W2). now rewrite T2, X2, W2, X1, W1. }
      unfold shear, sumv. f_equal; [apply (SO vx)|apply (SO vy)|apply (SO vz)]. }
    rewrite SH. unfold moveParticle1. unfold is_type. cbn [p_type set_acc]. rewrite T1, T. cbn [Z.eqb Fluid Pos.eqb]. simpl p_type.
    assert (GA : p_acc (calGravity1 (m_gravity m) p) = addR vzero (m_gravity m)).
    { unfold calGravity1. rewrite (proj2 (is_type_eq _ _) T). simpl. rewrite AC. reflexivity. }
    cbn [p_vel p_pos set_acc set_pos set_vel p_acc]. rewrite GA, W1, X1.
    subst s. split; [rewrite T1; auto|]. split; apply vec_ext; simpl; unfold visc_coeff; simpl; ringR.
Qed.

Lemma C17_prediction_lemma (m : @mps Rnum) : ready m -> apart (m_ps m) ->
  exists ns ps1 ns' ps2, setNeighbors (m_ns m) (m_ps m) = Ok (ns, ps1) /\ stepMove m = Ok (ns', ps2) /\
    List.length ps2 = List.length ps1 /\
    let s := m_settings m in
    forall i p, nth_error ps1 i = Some p -> exists p', nth_error ps2 i = Some p' /\
      (p_type p <> Fluid -> p_type p' = p_type p /\ p_vel p' = p_vel p /\ p_pos p' = p_pos p) /\
      (p_type p = Fluid ->
         let visc := scaleR (s_nu s * (2 * IZR (s_dim s)) / (rv_n0 (m_rvL m) * rv_lambda (m_rvL m))) (shear (s_reL s) ps1 i p) in
         p_type p' = Fluid /\
         p_vel p' = addR (p_vel p) (scaleR (s_dt s) (addR (m_gravity m) visc)) /\
         p_pos p' = addR (p_pos p) (scaleR (s_dt s) (p_vel p'))).
Proof.
  intros Rd A. pose proof Rd as ((I & AR & U) & (PD & _) & _).
  destruct (C01_lemma _ _ _ _ (ready_reMax m Rd) PD U I) as (ns & ps1 & E & _). exists ns, ps1, ns.
  destruct (prediction_run m ns ps1 Rd E (search_apart _ _ _ _ _ _ U E A)) as (ps2 & E2 & H). exists ps2. auto.
Qed.
