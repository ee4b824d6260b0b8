(** * The explicit pressure calculation (C24, C25, C30) *)
From Verif Require Export StepFacts.
From Coq Require Import PeanoNat.
Open Scope Z_scope.

Section ExplicitFacts.
Context {N : Num}.
Local Open Scope num_scope.

Lemma fill_gen {A} (f : particle -> A) (ps pre : list particle) (v : list A) :
  indexed (pre ++ ps) -> List.length v = List.length (pre ++ ps) ->
  foldM (fun p v => vset v (p_id p) (f p)) ps (map f pre ++ skipn (List.length pre) v) = Ok (map f (pre ++ ps)).
Proof.
  revert pre. induction ps as [|p ps IH]; intros pre ID LV; simpl.
  - rewrite !app_nil_r in *. rewrite skipn_all2 by lia. now rewrite app_nil_r.
  - assert (P : p_id p = Z.of_nat (List.length pre)).
    { apply (ID (List.length pre)). rewrite nth_error_app2, Nat.sub_diag by lia. reflexivity. }
    rewrite app_length in LV. simpl in LV.
    assert (E : exists a t, skipn (List.length pre) v = a :: t /\ t = skipn (S (List.length pre)) v).
    { destruct (skipn (List.length pre) v) as [|a t] eqn:EV.
      - assert (L := skipn_length (List.length pre) v). rewrite EV in L. simpl in L. lia.
      - exists a, t. split; auto. revert EV. generalize (List.length pre). clear. intros n. revert n t. induction v as [|b v IHv]; intros [|n] t H; simpl in *; try discriminate; [now inv H|]. rewrite (IHv n t); auto. }
    destruct E as (a & t & E & Et). rewrite P. unfold vset. destruct (Z.ltb_spec (Z.of_nat (List.length pre)) 0); [lia|]. rewrite Nat2Z.id.
    rewrite app_length, map_length, E. simpl List.length. replace (Nat.ltb _ _) with true by (symmetry; apply Nat.ltb_lt; lia). simpl.
    replace (upd (map f pre ++ a :: t) (List.length pre) (f p)) with (map f (pre ++ [p]) ++ skipn (List.length (pre ++ [p])) v).
    + rewrite IH; [f_equal; now rewrite <- app_assoc| |]; rewrite <- app_assoc; simpl; auto. rewrite app_length; simpl; lia.
    + rewrite app_length, map_app. simpl. rewrite Nat.add_1_r, <- Et, <- app_assoc. simpl. clear.
      induction pre; simpl; auto. now rewrite IHpre.
Qed.

Lemma fill {A} (f : particle -> A) ps v : indexed ps -> List.length v = List.length ps ->
  foldM (fun p v => vset v (p_id p) (f p)) ps v = Ok (map f ps).
Proof. intros ID L. apply (fill_gen f ps [] v ID L). Qed.

Lemma explicitCalc_map n0 c ps : indexed ps -> explicitCalc n0 c ps = Ok (map (explicit1 n0 c) ps).
Proof. intros ID. unfold explicitCalc. apply fill; auto. now rewrite repeat_length. Qed.

Lemma assign_map f ps : indexed ps -> assignPressure (map f ps) ps = Ok (map (fun p => set_press p (f p)) ps).
Proof.
  intros ID. rewrite assignPressure_mapM. rewrite <- mapM_Ok. apply mapM_ext. intros p Hp. apply In_nth_error in Hp. destruct Hp as [i Hp].
  rewrite (ID i p Hp). erewrite vget_nat; [reflexivity|]. now rewrite BaseFacts.nth_error_map, Hp.
Qed.

(** what the pressure gradient stage does not change *)
Definition same_state (p p' : particle) : Prop :=
  p_id p' = p_id p /\ p_type p' = p_type p /\ p_nd p' = p_nd p /\ p_dens p' = p_dens p /\ p_press p' = p_press p /\ p_bc p' = p_bc p.
Lemma same_state_refl p : same_state p p.
Proof. unfold same_state; auto 10. Qed.
Lemma same_state_trans p q r : same_state p q -> same_state q r -> same_state p r.
Proof. unfold same_state. intuition congruence. Qed.
Ltac sst := unfold same_state; simpl; auto 10.

Lemma minp_state re ps ps' : setMinimumPressure re ps = Ok ps' -> Forall2 same_state ps ps'.
Proof.
  unfold setMinimumPressure. intros H.
  eapply Forall2_trans; [apply same_state_trans|apply Forall2_map_r; intros p; instantiate (1 := fun p => set_minp p (p_press p)); sst|].
  revert H. apply (foldM_R _ same_state_refl same_state_trans). intros i t t' H. unfold minp1 in H.
  binds H. destruct (ghost_or_dummy r); [inv H; apply Forall2_same, same_state_refl|].
  revert H. apply (foldM_R _ same_state_refl same_state_trans). clear. intros nb t t' H. unfold minp_pair in H.
  binds H. binds H. destruct (ghost_or_dummy r0); [inv H; apply Forall2_same, same_state_refl|].
  destruct (_ <? _)%Z; [inv H; apply Forall2_same, same_state_refl|].
  destruct (nlt _ _); [|inv H; apply Forall2_same, same_state_refl].
  binds H. apply (vmod_R _ same_state_refl) in E1; [|intros; sst]. apply (vmod_R _ same_state_refl) in H; [|intros; sst].
  eapply Forall2_trans; [apply same_state_trans| |]; eauto.
Qed.
Lemma gradient_state s rv re ps ps' : calPressureGradient s rv re ps = Ok ps' -> Forall2 same_state ps ps'.
Proof.
  apply (each_R _ same_state_refl same_state_trans). intros w a a' H. unfold calPressureGradient1 in H.
  destruct (negb _); [inv H; sst|]. binds H. inv H. sst.
Qed.
Lemma correct_state s ps : Forall2 same_state ps (moveParticleUsingPressureGradient s ps).
Proof. apply Forall2_map_r. intros p. unfold correct1. destruct (is_type p Fluid); sst. Qed.

Lemma explicit1_state n0 c p p' : same_state p p' -> explicit1 n0 c p' = explicit1 n0 c p.
Proof. intros (_ & A & B & C & _). unfold explicit1, is_type. now rewrite A, B, C. Qed.

(** the pressures after the first update, in a step with the explicit method *)
Lemma first_update S m n0 c ns ps ns' ps' : m_calc m = Explicit n0 c -> indexed ps -> stepPressure S m ns ps = Ok (ns', ps') ->
  indexed ps' /\ forall p, In p ps' -> p_press p = explicit1 n0 c p.
Proof.
  intros K ID H. unfold stepPressure in H. binds H. destruct r as [n1 q1]. binds H. binds H. destruct r0 as [q2 x]. binds H. inv H.
  rewrite K in E1. cbn [calc] in E1. binds E1. inv E1.
  assert (I2 : indexed q2).
  { apply setNeighbors_evolves in E. apply calNumberDensity_evolves in E0.
    intros k q Hq. destruct (Forall2_nth_r _ _ _ _ _ E0 Hq) as (a & Ha & ((J & _) & _)). destruct (Forall2_nth_r _ _ _ _ _ E Ha) as (b & Hb & ((J2 & _) & _)).
    rewrite J, J2. now apply ID. }
  rewrite explicitCalc_map in E3 by auto. inv E3. rewrite assign_map in E2 by auto. inv E2. split.
  - intros k q Hq. rewrite BaseFacts.nth_error_map in Hq. destruct (nth_error q2 k) eqn:Hk; inv Hq. simpl. now apply I2.
  - intros p Hp. apply in_map_iff in Hp. destruct Hp as (a & <- & Ha). reflexivity.
Qed.

(** C25: the second update changes nothing *)
Lemma C25_lemma m n0 c ps ps' : m_calc m = Explicit n0 c -> indexed ps -> (forall p, In p ps -> p_press p = explicit1 n0 c p) ->
  stepCorrect m ps = Ok ps' ->
  exists ps1 ps2, setMinimumPressure (s_reG (m_settings m)) ps = Ok ps1 /\ calPressureGradient (m_settings m) (m_rvG m) (s_reG (m_settings m)) ps1 = Ok ps2 /\
    ps' = moveParticleUsingPressureGradient (m_settings m) ps2 /\ map p_press ps' = map p_press ps.
Proof.
  intros K ID HP H. unfold stepCorrect in H. binds H. binds H. rewrite K in H. binds H.
  exists r, r0. split; auto. split; auto.
  assert (F : Forall2 same_state ps (moveParticleUsingPressureGradient (m_settings m) r0)).
  { eapply Forall2_trans; [apply same_state_trans|eapply minp_state; eauto|]. eapply Forall2_trans; [apply same_state_trans|eapply gradient_state; eauto|apply correct_state]. }
  set (w := moveParticleUsingPressureGradient (m_settings m) r0) in *.
  assert (IW : indexed w).
  { intros k q Hq. destruct (Forall2_nth_r _ _ _ _ _ F Hq) as (a & Ha & (J & _)). rewrite J. now apply ID. }
  rewrite explicitCalc_map in E1 by auto. inv E1. rewrite assign_map in H by auto. inv H.
  assert (EQ : map (fun p => set_press p (explicit1 n0 c p)) w = w).
  { rewrite <- (map_id w) at 2. apply map_ext_in. intros p Hp. apply In_nth_error in Hp. destruct Hp as [k Hp].
    destruct (Forall2_nth_r _ _ _ _ _ F Hp) as (a & Ha & SS). rewrite (explicit1_state _ _ _ _ SS), <- (HP a) by (eapply nth_error_In; eauto).
    destruct SS as (_ & _ & _ & _ & PP & _). rewrite <- PP. now destruct p. }
  rewrite EQ. split; auto. clear -F. induction F; simpl; auto. destruct H as (_ & _ & _ & _ & PP & _). congruence.
Qed.

(** ... so the pressures after a step are those before the correction *)
Lemma C25_step_lemma S m m' n0 c : sound m -> m_calc m = Explicit n0 c -> stepForward S m = Ok m' ->
  exists ns ps ns' ps' ns'' ps'', stepMove m = Ok (ns, ps) /\ stepCollide m ns ps = Ok (ns', ps') /\ stepPressure S m ns' ps' = Ok (ns'', ps'') /\
    map p_press (m_ps m') = map p_press ps'' /\
    exists ps1 ps2, setMinimumPressure (s_reG (m_settings m)) ps'' = Ok ps1 /\ calPressureGradient (m_settings m) (m_rvG m) (s_reG (m_settings m)) ps1 = Ok ps2 /\
      m_ps m' = moveParticleUsingPressureGradient (m_settings m) ps2.
Proof.
  intros (I & _ & _) K H. unfold stepForward in H. binds H. destruct r as [n1 p1]. binds H. destruct r as [n2 p2]. binds H. destruct r as [n3 p3]. binds H.
  destruct (calCourant _ _). inv H. exists n1, p1, n2, p2, n3, p3. split; auto. split; auto. split; auto.
  assert (I1 : indexed p1).
  { unfold stepMove in E. binds E. destruct r0 as [na qa]. binds E. inv E. eapply same_id_indexed; [|exact I].
    eapply Forall2_trans; [apply same_id_trans|eapply Forall2_impl; [|eapply setNeighbors_evolves; eauto]; intros ? ? X; apply X|].
    eapply Forall2_trans; [apply same_id_trans|eapply Forall2_impl; [|apply (calGravity_evolves (m_gravity m))]; intros ? ? X; apply X|].
    eapply Forall2_trans; [apply same_id_trans|eapply Forall2_impl; [|eapply calViscosity_evolves; eauto]; intros ? ? X; apply X|].
    eapply Forall2_impl; [|apply moveParticle_evolves]; intros ? ? X; apply X. }
  assert (I2 : indexed p2).
  { unfold stepCollide in E0. binds E0. destruct r0 as [na qa]. binds E0. inv E0. eapply same_id_indexed; [|exact I1].
    eapply Forall2_trans; [apply same_id_trans|eapply Forall2_impl; [|eapply setNeighbors_evolves; eauto]; intros ? ? X; apply X|]. eapply collision_same_id; eauto. }
  destruct (first_update S m n0 c n2 p2 n3 p3 K I2 E1) as [I3 HP].
  destruct (C25_lemma m n0 c p3 r K I3 HP E2) as (q1 & q2 & A & B & C & D). simpl m_ps. split; auto. exists q1, q2. auto.
Qed.

(** C30: with the explicit method the boundary condition never changes *)
Definition same_bc (p p' : particle) : Prop := p_bc p' = p_bc p.
Lemma same_bc_refl p : same_bc p p.
Proof. reflexivity. Qed.
Lemma same_bc_trans p q r : same_bc p q -> same_bc q r -> same_bc p r.
Proof. unfold same_bc. congruence. Qed.
Ltac sbc := unfold same_bc; simpl; auto.

Lemma state_bc ps ps' : Forall2 same_state ps ps' -> Forall2 same_bc ps ps'.
Proof. apply Forall2_impl. intros a b (_ & _ & _ & _ & _ & H). exact H. Qed.
Ltac fold_bc := apply (each_R _ same_bc_refl same_bc_trans); intros w a a' H.
Lemma search_bc ns ps ns' ps' : setNeighbors ns ps = Ok (ns', ps') -> Forall2 same_bc ps ps'.
Proof.
  unfold setNeighbors. intros H. binds H. destruct r as [bk ps1]. binds H. inv H.
  eapply Forall2_trans; [apply same_bc_trans| |].
  - revert E. unfold storeParticles. destruct (negb _); [discriminate|]. destruct (negb _); [discriminate|]. intros H.
    binds H. destruct r as [[[f l] nx] ps2]. inv H.
    apply foldM_inv with (P := fun st => Forall2 same_bc ps (snd st)) in E; [exact E|simpl; apply Forall2_same, same_bc_refl|].
    clear. intros i [[[f l] nx] ps1] t' _ Ht H. simpl in *. unfold store1 in H.
    destruct (nth_error ps1 i) eqn:E; [|discriminate]. destruct (is_type p Ghost); [inv H; auto|].
    destruct (negb _).
    + inv H. simpl. eapply Forall2_trans; [apply same_bc_trans|exact Ht|].
      eapply Forall2_upd; [apply same_bc_refl|exact E|sbc].
    + binds H. binds H. binds H. binds H. destruct r2. binds H. inv H. auto.
  - revert E0. fold_bc. unfold neighborsOf in H. destruct (is_type a Ghost); [inv H; sbc|].
    binds H. binds H. inv H. sbc.
Qed.
Lemma collision_bc s ps ps' : collision s ps = Ok ps' -> Forall2 same_bc ps ps'.
Proof.
  apply (foldM_R _ same_bc_refl same_bc_trans). intros i t t' H. unfold collision1 in H. binds H.
  destruct (negb _); [inv H; apply Forall2_same, same_bc_refl|]. revert H.
  apply (foldM_R _ same_bc_refl same_bc_trans). clear. intros nb t t' H. unfold collide in H. binds H. binds H.
  destruct (_ && _); [inv H; apply Forall2_same, same_bc_refl|].
  destruct (nlt _ _); [|inv H; apply Forall2_same, same_bc_refl].
  binds H. binds H. binds H.
  apply (vmod_R _ same_bc_refl) in E1, E2, E3, H; try (intros; sbc).
  repeat (eapply Forall2_trans; [exact same_bc_trans| |]; eauto).
Qed.
Lemma assign_bc x ps ps' : assignPressure x ps = Ok ps' -> Forall2 same_bc ps ps'.
Proof. fold_bc. binds H. inv H. sbc. Qed.

Lemma C30_step S m m' n0 c : m_calc m = Explicit n0 c -> stepForward S m = Ok m' -> Forall2 same_bc (m_ps m) (m_ps m').
Proof.
  intros K H.
  assert (Tr : forall l1 l2 l3, Forall2 same_bc l1 l2 -> Forall2 same_bc l2 l3 -> Forall2 same_bc l1 l3) by (intros; eapply Forall2_trans; eauto using same_bc_trans).
  unfold stepForward in H. binds H. destruct r as [ns1 ps1]. binds H. destruct r as [ns2 ps2]. binds H. destruct r as [ns3 ps3].
  binds H. destruct (calCourant (m_settings m) r) as [cc err]. inv H. simpl.
  apply Tr with ps1; [|apply Tr with ps2; [|apply Tr with ps3]]; [clear E0 E1 E2|clear E E1 E2|clear E E0 E2|clear E E0 E1].
  - unfold stepMove in E. binds E. destruct r0 as [ns0 ps0]. binds E. inv E. apply search_bc in E0.
    eapply Tr; [exact E0|]. eapply Tr; [apply Forall2_map_r; intros p; instantiate (1 := calGravity1 (m_gravity m)); unfold calGravity1; destruct (is_type p Fluid); sbc|].
    eapply Tr; [|apply Forall2_map_r; intros p; unfold moveParticle1; destruct (is_type p Fluid); sbc].
    revert E1. fold_bc. unfold calViscosity1 in H. destruct (negb _); [inv H; sbc|]. binds H. inv H. sbc.
  - unfold stepCollide in E0. binds E0. destruct r0 as [ns0 ps0]. binds E0. inv E0. apply search_bc in E. apply collision_bc in E1. eauto.
  - unfold stepPressure in E1. binds E1. destruct r0 as [ns0 ps0]. binds E1. binds E1. destruct r1 as [ps5 x]. binds E1. inv E1.
    rewrite K in E2. cbn [calc] in E2. binds E2. inv E2. apply search_bc in E. apply assign_bc in E3.
    eapply Tr; [exact E|]. eapply Tr; [|exact E3]. revert E0. fold_bc. unfold calNumberDensity1 in H.
    destruct (is_type a Ghost); [inv H; sbc|]. binds H. inv H. sbc.
  - unfold stepCorrect in E2. binds E2. binds E2. rewrite K in E2. binds E2. apply assign_bc in E2.
    eapply Tr; [eapply state_bc, minp_state; eauto|]. eapply Tr; [eapply state_bc, gradient_state; eauto|].
    eapply Tr; [apply state_bc, (correct_state (m_settings m))|exact E2].
Qed.

(** C30: over any number of steps *)
Lemma C30_lemma S n m m' n0 c i p p' : steps S n m m' -> m_calc m = Explicit n0 c -> nth_error (m_ps m) i = Some p -> nth_error (m_ps m') i = Some p' -> p_bc p' = p_bc p.
Proof.
  intros H K Hp Hp'. assert (F : Forall2 same_bc (m_ps m) (m_ps m')).
  { clear -H K. induction H; [apply Forall2_same, same_bc_refl|]. eapply Forall2_trans; [apply same_bc_trans|apply IHsteps; auto|].
    eapply C30_step; eauto. destruct (steps_static _ _ _ _ H) as (_ & _ & EK & _). rewrite EK; exact K. }
  destruct (Forall2_nth _ _ _ _ _ F Hp) as (q & Hq & E). rewrite Hp' in Hq. inv Hq. exact E.
Qed.
End ExplicitFacts.
