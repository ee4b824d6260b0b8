(** * A planar problem stays planar, for every arithmetic in which the off-plane values
    form an ideal (C23) *)
From Coq Require Import PeanoNat.
From Verif Require Export StepFacts.

Lemma Forall_vget {A} (P : A -> Prop) l i a : Forall P l -> vget l i = Ok a -> P a.
Proof. intros F H. apply vget_ok in H. destruct H as [_ H]. rewrite Forall_forall in F. apply F. eapply nth_error_In; eauto. Qed.
Lemma Forall_upd {A} (P : A -> Prop) l i a : Forall P l -> P a -> Forall P (upd l i a).
Proof. intros F; revert i. induction F; destruct i; simpl; intros; constructor; auto. Qed.
Lemma Forall_vmod {A} (P : A -> Prop) l i f l' : Forall P l -> (forall a, P a -> P (f a)) -> vmod l i f = Ok l' -> Forall P l'.
Proof.
  intros F HF H. apply vmod_ok in H. destruct H as (a & _ & E & ->). apply Forall_upd; auto. apply HF.
  rewrite Forall_forall in F. apply F. eapply nth_error_In; eauto.
Qed.
Lemma Forall_each {A} (P : A -> Prop) body l l' : Forall P l ->
  (forall w a a', Forall P w -> P a -> body w a = Ok a' -> P a') -> each body l = Ok l' -> Forall P l'.
Proof.
  intros F HB. unfold each. apply foldM_inv with (P := Forall P); auto. intros i w w' _ Fw H.
  destruct (nth_error w i) eqn:E; [|discriminate]. binds H. inv H. apply Forall_upd; auto. eapply HB; eauto.
  rewrite Forall_forall in Fw. apply Fw. eapply nth_error_In; eauto.
Qed.

Section Planar.
Context {N : Num}.
Local Open Scope num_scope.
Variable O : num -> Prop.
Hypothesis O_0 : O #0.
Hypothesis O_add : forall a b, O a -> O b -> O (a + b).
Hypothesis O_sub : forall a b, O a -> O b -> O (a - b).
Hypothesis O_mull : forall a b, O a -> O (a * b).
Hypothesis O_mulr : forall a b, O b -> O (a * b).
Hypothesis O_div : forall a b, O a -> O (a / b).

Definition flat0 (p : particle) : Prop := O (vz (p_pos p)) /\ O (vz (p_vel p)) /\ O (vz (p_acc p)).

Lemma search_flat re d ns ps ns' ps' : used_searcher re d (List.length ps) ns -> setNeighbors ns ps = Ok (ns', ps') -> Forall flat0 ps -> Forall flat0 ps'.
Proof.
  intros U E F. apply search_only with (1 := U) in E. rewrite Forall_forall in *. intros p' Hp'.
  apply In_nth_error in Hp'. destruct Hp' as [i Hp']. destruct (Forall2_nth_r _ _ _ _ _ E Hp') as (p & Hp & t & l & -> & _).
  apply (F p). eapply nth_error_In; eauto.
Qed.

Lemma vzsum {A} (f : A -> vec -> outcome vec) l a r : O (vz a) ->
  (forall x u u', O (vz u) -> f x u = Ok u' -> O (vz u')) -> foldM f l a = Ok r -> O (vz r).
Proof. intros H HF. apply foldM_inv with (P := fun u : vec => O (vz u)); auto. intros x u u' _ Hu. now apply HF. Qed.

Lemma normal_flat (a b : particle) : flat0 a -> flat0 b -> O (vz (vnormalized (vsub (p_pos b) (p_pos a)))).
Proof. intros (A & _) (B & _). unfold vnormalized. destruct (nlt _ _); simpl; auto. Qed.

Lemma collide_flat s i nb ps ps' : Forall flat0 ps -> collide s i nb ps = Ok ps' -> Forall flat0 ps'.
Proof.
  intros F H. unfold collide in H. binds H. binds H. destruct (_ && _); [inv H; auto|]. destruct (nlt _ _); [|inv H; auto].
  assert (A := Forall_vget _ _ _ _ F E). assert (B := Forall_vget _ _ _ _ F E0). assert (NZ := normal_flat _ _ A B). cbv zeta in H.
  revert NZ H. generalize (vnormalized (vsub (p_pos r0) (p_pos r))). intros n NZ H.
  binds H. binds H. binds H.
  eapply Forall_vmod in E1; [|exact F|]. 2: { intros p (P1 & P2 & P3). unfold flat0. simpl. auto. }
  eapply Forall_vmod in E2; [|exact E1|]. 2: { intros p (P1 & P2 & P3). unfold flat0. simpl. auto. }
  eapply Forall_vmod in E3; [|exact E2|]. 2: { intros p (P1 & P2 & P3). unfold flat0. simpl. auto. }
  eapply Forall_vmod in H; [exact H|exact E3|]. intros p (P1 & P2 & P3). unfold flat0. simpl. auto.
Qed.

Lemma collision_flat0 s ps ps' : Forall flat0 ps -> collision s ps = Ok ps' -> Forall flat0 ps'.
Proof.
  intros F. unfold collision. apply foldM_inv with (P := Forall flat0); auto. intros i w w' _ Fw H. unfold collision1 in H. binds H.
  destruct (negb _); [inv H; auto|]. revert H. apply foldM_inv with (P := Forall flat0); auto. intros nb u u' _ Fu H. eapply collide_flat; eauto.
Qed.

Lemma move_flat ps ps' : Forall2 same_move ps ps' -> Forall flat0 ps -> Forall flat0 ps'.
Proof.
  induction 1; intros F; inv F; constructor; auto. destruct H as (((_ & A & B) & _) & C). unfold flat0. rewrite A, B, C. auto.
Qed.

Lemma flat_map (f : particle -> particle) ps : (forall p, flat0 p -> flat0 (f p)) -> Forall flat0 ps -> Forall flat0 (map f ps).
Proof. intros K F. rewrite Forall_forall in *. intros p Hp. apply in_map_iff in Hp. destruct Hp as (a & <- & Ha). auto. Qed.

Lemma step_flat S m m' : sound m -> O (vz (m_gravity m)) -> (forall p, In p (m_ps m) -> O (vz (p_pos p)) /\ O (vz (p_vel p))) ->
  stepForward S m = Ok m' -> forall p, In p (m_ps m') -> O (vz (p_pos p)) /\ O (vz (p_vel p)).
Proof.
  intros (I & AR & U) G P H.
  assert (F : Forall flat0 (m_ps m)).
  { apply Forall_forall. intros p Hp. destruct (P p Hp). split; auto. split; auto. rewrite (AR p Hp). exact O_0. }
  cut (Forall flat0 (m_ps m')). { rewrite Forall_forall. intros K p Hp. destruct (K p Hp) as (A & B & _). auto. }
  unfold stepForward in H. binds H. destruct r as [n1 p1]. binds H. destruct r as [n2 p2]. binds H. destruct r as [n3 p3]. binds H.
  destruct (calCourant _ _). inv H. simpl m_ps.
  assert (U1 := move_searcher _ _ _ _ _ U E). assert (U2 := collide_searcher _ _ _ _ _ _ _ U1 E0).
  (* move *)
  assert (F1 : Forall flat0 p1).
  { unfold stepMove in E. binds E. destruct r0 as [n0 q]. binds E. inv E.
    eapply search_flat in E3; eauto.
    apply flat_map. { intros a (A & B & C). unfold moveParticle1. destruct (is_type a Fluid); unfold flat0; simpl; auto 10. }
    revert E4. apply Forall_each.
    { apply flat_map; auto. intros a (A & B & C). unfold calGravity1. destruct (is_type a Fluid); unfold flat0; simpl; auto 10. }
    intros w a a' Fw (A & B & C) H. unfold calViscosity1 in H. destruct (negb _); [inv H; unfold flat0; auto|].
    binds H. inv H. unfold flat0. simpl. split; auto. split; auto. apply O_add; auto. apply O_mull.
    revert E. apply vzsum; auto. intros nb u u' Hu H. unfold visc_term in H. binds H. destruct (nlt _ _); [|inv H; auto]. binds H. inv H.
    destruct (Forall_vget _ _ _ _ Fw E) as (_ & A' & _). simpl. auto. }
  (* collide *)
  assert (F2 : Forall flat0 p2).
  { unfold stepCollide in E0. binds E0. destruct r0 as [n0 q]. binds E0. inv E0. apply (search_flat _ _ _ _ _ _ U1 E3) in F1. eapply collision_flat0; eauto. }
  (* pressure *)
  assert (F3 : Forall flat0 p3).
  { unfold stepPressure in E1. binds E1. destruct r0 as [n0 q]. binds E1. binds E1. destruct r1 as [q2 x]. binds E1. inv E1.
    apply (search_flat _ _ _ _ _ _ U2 E3) in F2. apply calNumberDensity_move in E4. apply calc_move in E5. apply assignPressure_move in E6.
    eapply move_flat; [exact E6|]. eapply move_flat; [exact E5|]. eapply move_flat; eauto. }
  unfold stepCorrect in E2. binds E2. binds E2. apply minp_move in E3. apply move_flat in E3; auto.
  assert (F4 : Forall flat0 r1).
  { revert E4. apply Forall_each; auto. intros w a a' Fw (A & B & C) H. unfold calPressureGradient1 in H. destruct (negb _); [inv H; unfold flat0; auto|].
    binds H. inv H. unfold flat0. simpl. split; auto. split; auto. apply O_sub; auto. apply O_div, O_mull.
    revert E4. apply vzsum; auto. intros nb u u' Hu H. unfold grad_term in H. binds H. destruct (ghost_or_dummy _); [inv H; auto|]. destruct (nlt _ _); [|inv H; auto]. binds H. inv H.
    destruct (Forall_vget _ _ _ _ Fw E4) as (A' & _ & _). simpl. auto. }
  assert (F5 : Forall flat0 (moveParticleUsingPressureGradient (m_settings m) r1)).
  { apply flat_map; auto. intros a (A & B & C). unfold correct1. destruct (is_type a Fluid); unfold flat0; simpl; auto 10. }
  destruct (m_calc m).
  - inv E2. auto.
  - binds E2. apply assignPressure_move in E2. eapply move_flat; eauto.
Qed.

Lemma steps_flat S n m m' : steps S n m m' -> sound m -> O (vz (m_gravity m)) -> (forall p, In p (m_ps m) -> O (vz (p_pos p)) /\ O (vz (p_vel p))) ->
  forall p, In p (m_ps m') -> O (vz (p_pos p)) /\ O (vz (p_vel p)).
Proof.
  induction 1; auto. intros SD G P. eapply step_flat; [eapply steps_sound; eauto| | |eauto]; auto.
  destruct (steps_static _ _ _ _ H) as (_ & -> & _). auto.
Qed.
End Planar.
