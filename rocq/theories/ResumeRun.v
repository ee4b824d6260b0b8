(** * Continuing a run from a stored state *)
From Coq Require Import PeanoNat.
From Verif Require Import StepFacts SimFacts StepCasesF ResumeFacts.
Open Scope Z_scope.

Section ResumeRun.
Context {N : Num}.

(** ** the explicit method leaves the boundary conditions alone *)
Definition same_bc (p p' : particle) : Prop := p_bc p' = p_bc p.
Lemma same_bc_refl p : same_bc p p.
Proof. reflexivity. Qed.
Lemma same_bc_trans p q r : same_bc p q -> same_bc q r -> same_bc p r.
Proof. unfold same_bc. congruence. Qed.
Ltac sb := unfold same_bc; simpl; auto.
Lemma search_bc ns ps ns' ps' : setNeighbors ns ps = Ok (ns', ps') -> Forall2 same_bc ps ps'.
Proof.
  unfold setNeighbors. intros H. binds H. destruct r as [b ps1]. binds H. inv H.
  assert (A : Forall2 same_bc ps ps1).
  { revert E. unfold storeParticles. destruct (negb _); [discriminate|]. destruct (negb _); [discriminate|]. intros H.
    binds H. destruct r as [[[f l] nx] ps2]. inv H. apply foldM_inv with (P := fun st => Forall2 same_bc ps (snd st)) in E; auto.
    - simpl. apply Forall2_same, same_bc_refl.
    - clear. intros i [[[f l] nx] ps1] t' _ Ht H. simpl in *. unfold store1 in H.
      destruct (nth_error ps1 i) eqn:E; [|discriminate]. destruct (is_type p Ghost); [inv H; auto|]. destruct (negb _).
      + inv H. simpl. eapply Forall2_trans; [apply same_bc_trans|exact Ht|]. eapply Forall2_upd; [apply same_bc_refl|exact E|sb].
      + binds H. binds H. binds H. binds H. destruct r2. binds H. inv H. auto. }
  apply (each_R _ same_bc_refl same_bc_trans) in E0.
  - eapply Forall2_trans; [apply same_bc_trans| |]; eauto.
  - intros w a a' H. unfold neighborsOf in H. destruct (is_type a Ghost); [inv H; sb|]. binds H. binds H. inv H. sb.
Qed.
Lemma assign_bc x ps ps' : assignPressure x ps = Ok ps' -> Forall2 same_bc ps ps'.
Proof. apply (each_R _ same_bc_refl same_bc_trans). intros w a a' H. binds H. inv H. sb. Qed.
Lemma collision_bc s ps ps' : collision s ps = Ok ps' -> Forall2 same_bc ps ps'.
Proof.
  unfold collision. apply (foldM_R _ same_bc_refl same_bc_trans). intros i t t' H. unfold collision1 in H.
  binds H. destruct (negb _); [inv H; apply Forall2_same, same_bc_refl|].
  revert H. apply (foldM_R _ same_bc_refl same_bc_trans). intros nb u u'. unfold collide. clear. intros H. binds H. binds H.
  destruct (_ && _); [inv H; apply Forall2_same, same_bc_refl|]. destruct (nlt _ _); [|inv H; apply Forall2_same, same_bc_refl].
  binds H. binds H. binds H. apply (vmod_R _ same_bc_refl) in E1, E2, E3, H; try (intros; sb).
  repeat (eapply Forall2_trans; [apply same_bc_trans| |]; eauto).
Qed.
Lemma minp_bc re ps ps' : setMinimumPressure re ps = Ok ps' -> Forall2 same_bc ps ps'.
Proof.
  unfold setMinimumPressure. intros H.
  eapply Forall2_trans; [apply same_bc_trans|apply Forall2_map_r; intros p; instantiate (1 := fun p => set_minp p (p_press p)); sb|].
  revert H. apply (foldM_R _ same_bc_refl same_bc_trans). intros i t t' H. unfold minp1 in H.
  binds H. destruct (ghost_or_dummy r); [inv H; apply Forall2_same, same_bc_refl|].
  revert H. apply (foldM_R _ same_bc_refl same_bc_trans). clear. intros nb t t' H. unfold minp_pair in H.
  binds H. binds H. destruct (ghost_or_dummy r0); [inv H; apply Forall2_same, same_bc_refl|].
  destruct (_ <? _); [inv H; apply Forall2_same, same_bc_refl|].
  destruct (nlt _ _); [|inv H; apply Forall2_same, same_bc_refl].
  binds H. apply (vmod_R _ same_bc_refl) in E1; [|intros; sb]. apply (vmod_R _ same_bc_refl) in H; [|intros; sb].
  eapply Forall2_trans; [apply same_bc_trans| |]; eauto.
Qed.
Lemma bc_trans : forall l1 l2 l3, Forall2 same_bc l1 l2 -> Forall2 same_bc l2 l3 -> Forall2 same_bc l1 l3.
Proof. intros. eapply Forall2_trans; [apply same_bc_trans| |]; eauto. Qed.
Lemma move_bc m ns ps : stepMove m = Ok (ns, ps) -> Forall2 same_bc (m_ps m) ps.
Proof.
  unfold stepMove. intros H. binds H. destruct r as [n1 p1]. binds H. inv H. apply search_bc in E.
  apply (each_R _ same_bc_refl same_bc_trans) in E0; [|intros w x x' H; unfold calViscosity1 in H; destruct (negb _); [inv H; sb|]; binds H; inv H; sb].
  eapply bc_trans; [exact E|]. eapply bc_trans; [|eapply bc_trans; [exact E0|]]; apply Forall2_map_r; intros p.
  - unfold calGravity1; destruct (is_type p Fluid); sb.
  - unfold moveParticle1; destruct (is_type p Fluid); sb.
Qed.
Lemma collide_bc m ns ps ns' ps' : stepCollide m ns ps = Ok (ns', ps') -> Forall2 same_bc ps ps'.
Proof. unfold stepCollide. intros H. binds H. destruct r as [n1 p1]. binds H. inv H. eapply bc_trans; [eapply search_bc; eauto|eapply collision_bc; eauto]. Qed.
Lemma pressure_bc S m ns ps ns' ps' : ~ marking (m_calc m) -> stepPressure S m ns ps = Ok (ns', ps') -> Forall2 same_bc ps ps'.
Proof.
  unfold stepPressure. intros NM H. binds H. destruct r as [n1 p1]. binds H. binds H. destruct r0 as [p2 x]. binds H. inv H. apply search_bc in E. apply assign_bc in E2.
  apply (each_R _ same_bc_refl same_bc_trans) in E0; [|intros w y y' H; unfold calNumberDensity1 in H; destruct (is_type y Ghost); [inv H; sb|]; binds H; inv H; sb].
  destruct (m_calc m) as [det q|n0 c]; [destruct NM; exact I|]. cbn [calc] in E1. binds E1. inv E1. eapply bc_trans; [exact E|]. eapply bc_trans; [exact E0|exact E2].
Qed.
Lemma correct_bc m ps ps' : stepCorrect m ps = Ok ps' -> Forall2 same_bc ps ps'.
Proof.
  unfold stepCorrect. intros H. binds H. binds H. apply minp_bc in E.
  apply (each_R _ same_bc_refl same_bc_trans) in E0; [|intros w y y' H0; unfold calPressureGradient1 in H0; destruct (negb _); [inv H0; sb|]; binds H0; inv H0; sb].
  eapply bc_trans; [exact E|]. eapply bc_trans; [exact E0|].
  assert (K : Forall2 same_bc r0 (moveParticleUsingPressureGradient (m_settings m) r0)) by (apply Forall2_map_r; intros p; unfold correct1; destruct (is_type p Fluid); sb).
  destruct (m_calc m); [inv H; exact K|]. binds H. eapply bc_trans; [exact K|]. eapply assign_bc; eauto.
Qed.
Lemma step_bc S m m' : ~ marking (m_calc m) -> stepForward S m = Ok m' -> Forall2 same_bc (m_ps m) (m_ps m').
Proof.
  intros NM H. unfold stepForward in H. binds H. destruct r as [n1 p1]. binds H. destruct r as [n2 p2]. binds H. destruct r as [n3 p3]. binds H. destruct (calCourant _ _). inv H. cbn [m_ps].
  eapply bc_trans; [eapply move_bc; eauto|]. eapply bc_trans; [eapply collide_bc; eauto|]. eapply bc_trans; [eapply pressure_bc; eauto|eapply correct_bc; eauto].
Qed.
Lemma steps_bc S k m m' : ~ marking (m_calc m) -> steps S k m m' -> Forall2 same_bc (m_ps m) (m_ps m').
Proof.
  intros NM H. induction H as [m|k m m1 m2 H IH E]; [apply Forall2_same, same_bc_refl|]. eapply bc_trans; [apply IH; exact NM|]. eapply step_bc; eauto.
  destruct (steps_static _ _ _ _ H) as (_ & _ & EK & _). now rewrite EK.
Qed.

(** ** any number of steps *)
Lemma alike_of_result p q : same_result p q -> alike p q.
Proof. intros H. apply H. Qed.
Lemma setup_sym m r : same_setup m r -> same_setup r m.
Proof. unfold same_setup. intuition. Qed.
Lemma steps_agree S k m r m' : sound m -> sound r -> same_setup m r -> Forall2 alike (m_ps m) (m_ps r) -> steps S k m m' ->
  exists r', steps S k r r' /\ continued k m' r' /\ ((marking (m_calc m) /\ (0 < k)%nat) \/ same_marks m r -> same_marks m' r').
Proof.
  intros SM SR E L H. induction H as [m|k m m1 m2 H IH ST].
  - exists r. split; [constructor|]. split; [repeat split; try apply E; auto; lia|]. intros [(_ & X)|X]; [lia|exact X].
  - destruct (IH SM E L) as (r1 & R1 & (E1 & L1 & _) & M1). assert (SM1 := steps_sound _ _ _ _ H SM). assert (SR1 := steps_sound _ _ _ _ R1 SR).
    destruct (agree_ok _ _ _ _ (step_agree S m1 r1 SM1 SR1 E1 L1) ST) as (r2 & R2 & E2 & _ & C2 & _ & P2 & M2).
    exists r2. split; [econstructor; eauto|]. split.
    + split; [exact E2|]. split; [eapply Forall2_impl; [|exact P2]; apply alike_of_result|]. auto.
    + intros X. apply M2. destruct (steps_static _ _ _ _ H) as (_ & _ & EK & _). rewrite EK. destruct X as [(X & _)|X]; [left; exact X|right; apply M1; auto].
Qed.

Lemma steps_fun S k m m1 m2 : steps S k m m1 -> steps S k m m2 -> m2 = m1.
Proof. intros H. revert m2. induction H as [|k m a b H IH E]; intros m2 H2; inv H2; [reflexivity|]. apply IH in H1. subst. congruence. Qed.
Lemma steps_join S a b m m1 m2 : steps S a m m1 -> steps S b m1 m2 -> steps S (a + b) m m2.
Proof. intros A B. induction B; [now rewrite Nat.add_0_r|]. rewrite Nat.add_succ_r. econstructor; eauto. Qed.
Lemma steps_cut S a b m m2 : steps S (a + b) m m2 -> exists m1, steps S a m m1 /\ steps S b m1 m2.
Proof.
  revert m2. induction b as [|b IH]; intros m2 H; [rewrite Nat.add_0_r in H; exists m2; split; [auto|constructor]|].
  rewrite Nat.add_succ_r in H. inv H. destruct (IH _ H1) as (x & X & Y). exists x. split; [auto|]. econstructor; eauto.
Qed.
Lemma time_join t dt a b : time_at t dt (a + b) = time_at (time_at t dt a) dt b.
Proof. induction b as [|b IH]; [now rewrite Nat.add_0_r|]. rewrite Nat.add_succ_r. cbn [time_at]. now rewrite IH. Qed.

(** ** building the simulator again *)
Lemma create_again fsin fcos M_PI s ps m qs : factoryCreate fsin fcos M_PI s ps = Ok m -> List.length qs = List.length ps ->
  exists r, factoryCreate fsin fcos M_PI s qs = Ok r /\ same_setup m r /\ m_ps r = qs.
Proof.
  unfold factoryCreate, newMPS. intros H L. binds H. binds H. rewrite L. binds H. binds H. binds H. binds H. inv H. rewrite E. cbn [bind]. rewrite E0. cbn [bind]. rewrite E1. cbn [bind]. rewrite E2. cbn [bind]. rewrite E3. cbn [bind]. rewrite E4. cbn [bind].
  eexists. split; [reflexivity|]. split; [repeat split|reflexivity].
Qed.

Lemma setup_trans m r q : same_setup m r -> same_setup r q -> same_setup m q.
Proof. unfold same_setup. intuition congruence. Qed.
Lemma steps_setup S k m m' : steps S k m m' -> same_setup m m'.
Proof. intros H. destruct (steps_static _ _ _ _ H) as (? & ? & ? & ? & ? & ?). repeat split; auto. Qed.
Lemma fresh_new t s m : fresh (newSim t s m).
Proof. repeat split. Qed.
Lemma alike_indexed ps qs : Forall2 alike ps qs -> indexed ps -> indexed qs.
Proof.
  intros L I i q H. destruct (Forall2_nth_r _ _ _ _ _ L H) as (p & P & (E & _)). rewrite <- E. now apply I.
Qed.
Lemma result_refl m : Forall2 same_result (m_ps m) (m_ps m).
Proof. apply Forall2_same. intros p. unfold same_result, alike. auto 20. Qed.

Lemma resume_run fsin fcos M_PI s S real clk fuel t0 ps0 m0 st o qs r real' clk' fuel' st' :
  factoryCreate fsin fcos M_PI s ps0 = Ok m0 -> indexed ps0 -> at_rest ps0 -> run S real clk fuel (newSim t0 s m0) = Ok st -> In o (si_out st) ->
  Forall2 alike (m_ps (o_mps o)) qs -> at_rest qs -> factoryCreate fsin fcos M_PI s qs = Ok r -> run S real' clk' fuel' (newSim (o_time o) s r) = Ok st' ->
  si_time st' = si_time st /\ si_step st = o_step o + si_step st' /\ continued (Z.to_nat (si_step st')) (si_mps st) (si_mps st') /\
  (0 < si_step st' -> Forall2 (fun p q => p_bc p = p_bc q) ps0 qs -> same_marks (si_mps st) (si_mps st')) /\
  (forall o', In o' (si_out st') -> o_time o' = time_at t0 (s_dt s) (Z.to_nat (o_step o + o_step o')) /\
     exists m', steps S (Z.to_nat (o_step o + o_step o')) m0 m' /\ continued (Z.to_nat (o_step o')) m' (o_mps o')).
Proof.
  intros C0 I0 A0 R0 IO L AQ C1 R1.
  destruct (factory_sound _ _ _ _ _ _ C0 I0 A0) as (SD0 & P0 & S0).
  assert (R0' := R0). apply run_reached in R0' as (K & RE & _ & _). assert (SC := reached_schedule _ _ _ _ _ _ (fresh_new t0 s m0) RE). destruct SC as (_ & SC & _).
  destruct (run_times _ _ _ _ _ _ (fresh_new t0 s m0) R0) as (k & _ & Kst & Kt & Kstep & Kend & Kbefore). cbn [newSim si_start si_dt si_end si_mps] in *.
  destruct (reached_inv _ _ _ _ _ _ (fresh_new t0 s m0) RE) as (_ & _ & KK & _). assert (K = k) by lia. subst K.
  apply In_nth_error in IO. destruct IO as [j IO]. destruct (SC j o IO) as (_ & a & AK & AS & AT & ASt).
  assert (SDo := steps_sound _ _ _ _ ASt SD0). assert (IQ : indexed qs) by (eapply alike_indexed; [exact L|apply SDo]).
  destruct (factory_sound _ _ _ _ _ _ C1 IQ AQ) as (SD1 & P1 & S1).
  assert (SU : same_setup (o_mps o) r).
  { apply setup_trans with m0; [apply setup_sym, (steps_setup _ _ _ _ ASt)|]. destruct (create_again _ _ _ _ _ _ qs C0) as (r' & C1' & SU & _).
    - rewrite <- (Forall2_length _ _ _ L). assert (X := step_same_id). clear X. rewrite <- P0. clear - ASt. induction ASt as [|n m a b H IH E]; [reflexivity|]. rewrite <- (IH). apply step_same_id, Forall2_length in E. auto.
    - rewrite C1 in C1'. injection C1' as <-. exact SU. }
  rewrite <- P1 in L.
  destruct (run_times _ _ _ _ _ _ (fresh_new (o_time o) s r) R1) as (b & _ & Bst & Bt & Bstep & Bend & Bbefore). cbn [newSim si_start si_dt si_end si_mps] in *.
  assert (EK : k = (a + b)%nat).
  { rewrite AT in Bend, Bbefore. destruct (Nat.lt_trichotomy k (a + b)) as [X|[X|X]]; [|exact X|].
    - assert (Y := Bbefore (k - a)%nat). rewrite <- time_join in Y. replace (a + (k - a))%nat with k in Y by lia. rewrite Y in Kend by lia. discriminate.
    - assert (Y := Kbefore (a + b)%nat X). rewrite time_join, Bend in Y. discriminate. }
  subst k. destruct (steps_cut _ _ _ _ _ Kstep) as (mo & MO & MB). assert (mo = o_mps o) by (eapply steps_fun; [exact ASt|exact MO]). subst mo.
  destruct (steps_agree S b (o_mps o) r (si_mps st) SDo SD1 SU L MB) as (r' & R' & CO & MK). assert (r' = si_mps st') by (eapply steps_fun; [exact Bstep|exact R']). subst r'.
  split; [rewrite Bt, Kt, AT; symmetry; apply time_join|]. split; [lia|]. split; [rewrite Bst, Nat2Z.id; exact CO|]. split.
  { intros PB MK0. apply MK. destruct (m_calc (o_mps o)) as [det q|n0 c] eqn:EC; [left; split; [exact I|lia]|right].
    assert (NM : ~ marking (m_calc m0)) by (destruct (steps_static _ _ _ _ ASt) as (_ & _ & E & _); rewrite <- E, EC; intros X; exact X).
    assert (X := steps_bc _ _ _ _ NM ASt). unfold same_marks. rewrite P1. rewrite P0 in X. clear - X MK0. revert qs MK0. induction X as [|p q l l' E X IH]; intros qs H; inv H; constructor; auto. unfold same_bc in E. congruence. }
  assert (R1' := R1). apply run_reached in R1' as (K & RE1 & _ & _). assert (SC1 := reached_schedule _ _ _ _ _ _ (fresh_new (o_time o) s r) RE1). destruct SC1 as (_ & SC1 & _). cbn [newSim si_start si_dt si_end si_mps] in *.
  destruct (reached_inv _ _ _ _ _ _ (fresh_new (o_time o) s r) RE1) as (_ & _ & KB & _). assert (K = b) by lia. subst K.
  intros o' IO'. apply In_nth_error in IO'. destruct IO' as [j' IO']. destruct (SC1 j' o' IO') as (_ & c & CK & CS & CT & CSt).
  replace (Z.to_nat (o_step o + o_step o')) with (a + c)%nat by lia. rewrite CT, AT, <- time_join. split; [reflexivity|].
  replace b with (c + (b - c))%nat in MB by lia. destruct (steps_cut _ _ _ _ _ MB) as (mc & MC & _).
  exists mc. split; [eapply steps_join; eauto|]. destruct (steps_agree S c (o_mps o) r mc SDo SD1 SU L MC) as (r' & R'' & CO' & _). assert (r' = o_mps o') by (eapply steps_fun; [exact CSt|exact R'']). subst r'.
  replace (Z.to_nat (o_step o')) with c by lia. exact CO'.
Qed.
End ResumeRun.
