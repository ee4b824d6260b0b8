(** * Frame facts about the stages of a time step, for every number type *)
From Verif Require Export Step Spec NeighborFacts.
From Coq Require Import PeanoNat.
Open Scope Z_scope.

Section Frames.
Context {N : Num}.

Lemma Forall2_same {A} (R : A -> A -> Prop) l : (forall a, R a a) -> Forall2 R l l.
Proof. induction l; constructor; auto. Qed.

Lemma Forall2_trans {A} (R : A -> A -> Prop) l1 l2 l3 :
  (forall a b c, R a b -> R b c -> R a c) -> Forall2 R l1 l2 -> Forall2 R l2 l3 -> Forall2 R l1 l3.
Proof.
  intros T H; revert l3; induction H; intros l3 H'; inv H'; constructor; eauto.
Qed.

Lemma Forall2_upd {A} (R : A -> A -> Prop) l i a a' :
  (forall x, R x x) -> nth_error l i = Some a -> R a a' -> Forall2 R l (upd l i a').
Proof.
  intros Rf. revert i. induction l; destruct i; simpl; intros H H'; try discriminate.
  - inv H. constructor; auto. now apply Forall2_same.
  - constructor; auto.
Qed.

Lemma Forall2_map_r {A} (R : A -> A -> Prop) f l : (forall a, R a (f a)) -> Forall2 R l (map f l).
Proof. induction l; simpl; constructor; auto. Qed.

Section Rel.
Variable R : particle -> particle -> Prop.
Hypothesis Rrefl : forall p, R p p.
Hypothesis Rtrans : forall p q r, R p q -> R q r -> R p r.

Lemma each_R body ps ps' :
  (forall w a a', body w a = Ok a' -> R a a') -> each body ps = Ok ps' -> Forall2 R ps ps'.
Proof.
  intros HB. unfold each. apply foldM_inv with (P := fun w => Forall2 R ps w).
  - now apply Forall2_same.
  - intros i t t' _ Ht H. destruct (nth_error t i) eqn:E; [|discriminate]. binds H. inv H.
    eapply Forall2_trans; eauto. eapply Forall2_upd; eauto.
Qed.

Lemma vmod_R ps i f ps' : (forall a, nth_error ps (Z.to_nat i) = Some a -> R a (f a)) -> vmod ps i f = Ok ps' -> Forall2 R ps ps'.
Proof.
  intros HF H. apply vmod_ok in H. destruct H as (a & _ & E & ->). eapply Forall2_upd; eauto.
Qed.

Lemma foldM_R {A} (f : A -> list particle -> outcome (list particle)) xs ps ps' :
  (forall x t t', f x t = Ok t' -> Forall2 R t t') -> foldM f xs ps = Ok ps' -> Forall2 R ps ps'.
Proof.
  intros HF. apply foldM_inv with (P := fun w => Forall2 R ps w).
  - now apply Forall2_same.
  - intros x t t' _ Ht H. eapply Forall2_trans; eauto.
Qed.
End Rel.

(** ** loops over own particle = mapM *)
Lemma calViscosity_mapM s rv re ps : calViscosity s rv re ps = mapM (calViscosity1 s rv re ps) ps.
Proof.
  unfold calViscosity. apply each_mapM with (pr := p_vel).
  - intros w w' a Hw. unfold calViscosity1. destruct (negb _); auto.
    erewrite foldM_ext; [reflexivity|]. intros nb acc _. unfold visc_term, vget.
    destruct (nb_id nb <? 0); auto.
    assert (Hn : option_map p_vel (nth_error w (Z.to_nat (nb_id nb))) = option_map p_vel (nth_error w' (Z.to_nat (nb_id nb))))
      by (rewrite <- !nth_error_map; congruence).
    destruct (nth_error w _) as [u|], (nth_error w' _) as [u'|]; simpl in *; try discriminate; auto.
    injection Hn as Hn. now rewrite Hn.
  - intros w a a' H. unfold calViscosity1 in H. destruct (negb _); [now inv H|]. binds H. now inv H.
Qed.

Lemma calNumberDensity_mapM s re ps : calNumberDensity s re ps = mapM (calNumberDensity1 s re ps) ps.
Proof.
  unfold calNumberDensity. apply each_mapM with (pr := fun _ => tt); auto.
Qed.

Lemma setBoundaryCondition_mapM d ps : setBoundaryCondition d ps = mapM (setBC1 d ps) ps.
Proof.
  unfold setBoundaryCondition. apply each_mapM with (pr := p_pos).
  - intros w w' a Hw. unfold setBC1. destruct (ghost_or_dummy a); auto.
    replace (isFreeSurface d w a) with (isFreeSurface d w' a); auto.
    unfold isFreeSurface. destruct d; auto. destruct (nlt _ _); auto. unfold subDetection.
    destruct (p_nbrs a) as [|nb0 nbs]; auto. f_equal.
    apply foldM_ext. intros nb acc _. unfold vget. destruct (nb_id nb <? 0); auto.
    assert (Hn : option_map p_pos (nth_error w (Z.to_nat (nb_id nb))) = option_map p_pos (nth_error w' (Z.to_nat (nb_id nb))))
      by (rewrite <- !nth_error_map; congruence).
    destruct (nth_error w _) as [u|], (nth_error w' _) as [u'|]; simpl in *; try discriminate; auto.
    injection Hn as Hn. now rewrite Hn.
  - intros w a a' H. unfold setBC1 in H. destruct (ghost_or_dummy a); [now inv H|]. binds H. now inv H.
Qed.

Lemma calPressureGradient_mapM s rv re ps : calPressureGradient s rv re ps = mapM (calPressureGradient1 s rv re ps) ps.
Proof.
  unfold calPressureGradient. apply each_mapM with (pr := fun p => (p_type p, p_pos p, p_press p)).
  - intros w w' a Hw. unfold calPressureGradient1. destruct (negb _); auto.
    erewrite foldM_ext; [reflexivity|]. intros nb acc _. unfold grad_term, vget.
    destruct (nb_id nb <? 0); auto.
    assert (Hn : option_map (fun p => (p_type p, p_pos p, p_press p)) (nth_error w (Z.to_nat (nb_id nb)))
               = option_map (fun p => (p_type p, p_pos p, p_press p)) (nth_error w' (Z.to_nat (nb_id nb))))
      by (rewrite <- !nth_error_map; congruence).
    destruct (nth_error w _) as [u|], (nth_error w' _) as [u'|]; simpl in *; try discriminate; auto.
    injection Hn as H1 H2 H3. unfold ghost_or_dummy, is_type. now rewrite H1, H2, H3.
  - intros w a a' H. unfold calPressureGradient1 in H. destruct (negb _); [now inv H|]. binds H. now inv H.
Qed.

Lemma assignPressure_mapM x ps : assignPressure x ps = mapM (fun p => v <- vget x (p_id p) ;; Ok (set_press p v)) ps.
Proof. unfold assignPressure. now apply each_mapM with (pr := fun _ => tt). Qed.

(** ** identity and immobility *)

(** what may happen to a particle's identity: nothing, except becoming Ghost *)
Definition same_id (p p' : particle) : Prop :=
  p_id p' = p_id p /\ p_dens p' = p_dens p /\ p_fluidType p' = p_fluidType p /\
  (p_type p' = p_type p \/ p_type p' = Ghost).

Lemma same_id_refl p : same_id p p.
Proof. unfold same_id; auto. Qed.
Lemma same_id_trans p q r : same_id p q -> same_id q r -> same_id p r.
Proof. unfold same_id. intros (A & B & C & D) (A' & B' & C' & D'). repeat split; try congruence. destruct D' as [D'|D'], D as [D|D]; rewrite D'; auto. Qed.

(** in addition, a particle that is not Fluid does not move *)
Definition fixed (p p' : particle) : Prop :=
  p_type p <> Fluid -> p_pos p' = p_pos p /\ p_vel p' = p_vel p.
Definition evolves (p p' : particle) : Prop := same_id p p' /\ fixed p p'.

Lemma evolves_refl p : evolves p p.
Proof. split; [apply same_id_refl|red; auto]. Qed.
Lemma evolves_trans p q r : evolves p q -> evolves q r -> evolves p r.
Proof.
  intros [A B] [C D]. split; [eapply same_id_trans; eauto|]. intros H.
  destruct (B H) as [B1 B2].
  assert (p_type q <> Fluid). { destruct A as (_ & _ & _ & [A|A]); rewrite A; auto. discriminate. }
  destruct (D H0) as [D1 D2]. split; congruence.
Qed.

Lemma is_type_eq p t : is_type p t = true <-> p_type p = t.
Proof. unfold is_type. apply Z.eqb_eq. Qed.
Lemma is_type_neq p t : is_type p t = false <-> p_type p <> t.
Proof. unfold is_type. apply Z.eqb_neq. Qed.

Ltac ev := split; [unfold same_id; simpl; auto|unfold fixed; simpl; auto].

Lemma ghostify_evolves d p : evolves p (ghostify d p).
Proof. unfold ghostify. destruct (is_type p Ghost); [apply evolves_refl|]. destruct (isInDomain d (p_pos p)); [apply evolves_refl|ev]. Qed.

Lemma store_evolves b ps b' ps' : storeParticles b ps = Ok (b', ps') -> Forall2 evolves ps ps'.
Proof.
  unfold storeParticles. destruct (negb _); [discriminate|]. destruct (negb _); [discriminate|]. intros H.
  binds H. destruct r as [[[f l] nx] ps1]. inv H.
  apply foldM_inv with (P := fun st => Forall2 evolves ps (snd st)) in E; auto.
  - simpl. apply Forall2_same, evolves_refl.
  - clear. intros i [[[f l] nx] ps1] t' _ Ht H. simpl in *. unfold store1 in H.
    destruct (nth_error ps1 i) eqn:E; [|discriminate]. destruct (is_type p Ghost); [inv H; auto|].
    destruct (negb _).
    + inv H. simpl. eapply Forall2_trans; [apply evolves_trans|exact Ht|].
      eapply Forall2_upd; [apply evolves_refl|exact E|ev].
    + binds H. binds H. binds H. binds H. destruct r2. binds H. inv H. auto.
Qed.

Lemma setNeighbors_evolves ns ps ns' ps' : setNeighbors ns ps = Ok (ns', ps') -> Forall2 evolves ps ps'.
Proof.
  unfold setNeighbors. intros H. binds H. destruct r as [b ps1]. binds H. inv H.
  apply store_evolves in E. apply (each_R _ evolves_refl evolves_trans) in E0.
  - eapply Forall2_trans; [apply evolves_trans| |]; eauto.
  - intros w a a' H. unfold neighborsOf in H. destruct (is_type a Ghost); [inv H; apply evolves_refl|].
    binds H. binds H. inv H. ev.
Qed.

Lemma calGravity_evolves g ps : Forall2 evolves ps (calGravity g ps).
Proof. apply Forall2_map_r. intros p. unfold calGravity1. destruct (is_type p Fluid); ev. Qed.

Lemma calViscosity_evolves s rv re ps ps' : calViscosity s rv re ps = Ok ps' -> Forall2 evolves ps ps'.
Proof.
  apply (each_R _ evolves_refl evolves_trans). intros w a a' H. unfold calViscosity1 in H.
  destruct (negb _); [inv H; apply evolves_refl|]. binds H. inv H. ev.
Qed.

Lemma moveParticle_evolves s ps : Forall2 evolves ps (moveParticle s ps).
Proof.
  apply Forall2_map_r. intros p. unfold moveParticle1. destruct (is_type p Fluid) eqn:T; [|ev].
  apply is_type_eq in T. split; [unfold same_id; simpl; auto|]. intros H. contradiction.
Qed.

Lemma correct_evolves s ps : Forall2 evolves ps (moveParticleUsingPressureGradient s ps).
Proof.
  apply Forall2_map_r. intros p. unfold correct1. destruct (is_type p Fluid) eqn:T; [|ev].
  apply is_type_eq in T. split; [unfold same_id; simpl; auto|]. intros H. contradiction.
Qed.

Lemma calNumberDensity_evolves s re ps ps' : calNumberDensity s re ps = Ok ps' -> Forall2 evolves ps ps'.
Proof.
  apply (each_R _ evolves_refl evolves_trans). intros w a a' H. unfold calNumberDensity1 in H.
  destruct (is_type a Ghost); [inv H; ev|]. binds H. inv H. ev.
Qed.

Lemma setBC_evolves d ps ps' : setBoundaryCondition d ps = Ok ps' -> Forall2 evolves ps ps'.
Proof.
  apply (each_R _ evolves_refl evolves_trans). intros w a a' H. unfold setBC1 in H.
  destruct (ghost_or_dummy a); [inv H; ev|]. binds H. inv H. ev.
Qed.

Lemma calc_evolves S k ps ps' x : calc S k ps = Ok (ps', x) -> Forall2 evolves ps ps'.
Proof.
  unfold calc. destruct k.
  - unfold implicitCalc. intros H. binds H. destruct r as [ps1 d]. binds H. inv H.
    unfold generateBC in E. binds E. inv E. now apply setBC_evolves in E1.
  - intros H. binds H. inv H. apply Forall2_same, evolves_refl.
Qed.

Lemma assignPressure_evolves x ps ps' : assignPressure x ps = Ok ps' -> Forall2 evolves ps ps'.
Proof.
  apply (each_R _ evolves_refl evolves_trans). intros w a a' H. binds H. inv H. ev.
Qed.

Lemma minp_evolves re ps ps' : setMinimumPressure re ps = Ok ps' -> Forall2 evolves ps ps'.
Proof.
  unfold setMinimumPressure. intros H.
  eapply Forall2_trans; [apply evolves_trans|apply Forall2_map_r; intros p; instantiate (1 := fun p => set_minp p (p_press p)); ev|].
  revert H. apply (foldM_R _ evolves_refl evolves_trans). intros i t t' H. unfold minp1 in H.
  binds H. destruct (ghost_or_dummy r); [inv H; apply Forall2_same, evolves_refl|].
  revert H. apply (foldM_R _ evolves_refl evolves_trans). clear. intros nb t t' H. unfold minp_pair in H.
  binds H. binds H. destruct (ghost_or_dummy r0); [inv H; apply Forall2_same, evolves_refl|].
  destruct (_ <? _); [inv H; apply Forall2_same, evolves_refl|].
  destruct (nlt _ _); [|inv H; apply Forall2_same, evolves_refl].
  binds H. apply (vmod_R _ evolves_refl) in E1; [|intros; ev]. apply (vmod_R _ evolves_refl) in H; [|intros; ev].
  eapply Forall2_trans; [apply evolves_trans| |]; eauto.
Qed.

Lemma calPressureGradient_evolves s rv re ps ps' : calPressureGradient s rv re ps = Ok ps' -> Forall2 evolves ps ps'.
Proof.
  apply (each_R _ evolves_refl evolves_trans). intros w a a' H. unfold calPressureGradient1 in H.
  destruct (negb _); [inv H; apply evolves_refl|]. binds H. inv H. ev.
Qed.

(** the collision stage: identity in every arithmetic *)
Lemma collide_same_id s i nb ps ps' : collide s i nb ps = Ok ps' -> Forall2 same_id ps ps'.
Proof.
  unfold collide. intros H. binds H. binds H.
  destruct (_ && _); [inv H; apply Forall2_same, same_id_refl|].
  destruct (nlt _ _); [|inv H; apply Forall2_same, same_id_refl].
  binds H. binds H. binds H.
  apply (vmod_R _ same_id_refl) in E1, E2, E3, H; try (intros; unfold same_id; simpl; auto).
  repeat (eapply Forall2_trans; [apply same_id_trans| |]; eauto).
Qed.

Lemma collision_same_id s ps ps' : collision s ps = Ok ps' -> Forall2 same_id ps ps'.
Proof.
  unfold collision. apply (foldM_R _ same_id_refl same_id_trans). intros i t t' H. unfold collision1 in H.
  binds H. destruct (negb _); [inv H; apply Forall2_same, same_id_refl|].
  revert H. apply (foldM_R _ same_id_refl same_id_trans). intros nb u u'. apply collide_same_id.
Qed.

(** ... immobility of what is not Fluid needs x + (a * 0) * b = x *)
Definition absorbs_zero : Prop := forall x a b : num, nadd x (nmul (nmul a (nofZ 0)) b) = x.

Lemma vadd_zero (Z : absorbs_zero) x a n : vadd x (vmull (nmul a (nofZ 0)) n) = x.
Proof. unfold vadd, vmull. simpl. rewrite !Z. now destruct x. Qed.

(** the pair update in closed form *)
Definition pair_normal (pi pj : particle) : vec := vnormalized (vsub (p_pos pj) (p_pos pi)).
Definition pair_mass (pi pj : particle) : num := ndiv (nofZ 1) (nadd (inverseDensity pi) (inverseDensity pj)).
Definition pair_impulse (s : settings) (pi pj : particle) : num :=
  let relVel := vdot (vsub (p_vel pj) (p_vel pi)) (pair_normal pi pj) in
  if nlt relVel (nofZ 0) then nmul (nmul (nneg (nadd (nofZ 1) (s_restitution s))) relVel) (pair_mass pi pj) else nofZ 0.
Definition pair_push (s : settings) (d : num) (pi pj : particle) : num := nmul (nsub (s_colDist s) d) (pair_mass pi pj).
Definition hit_i (s : settings) (d : num) (pi pj : particle) : particle :=
  set_pos (set_vel pi (vsub (p_vel pi) (vmull (nmul (pair_impulse s pi pj) (inverseDensity pi)) (pair_normal pi pj))))
          (vsub (p_pos pi) (vmull (nmul (pair_push s d pi pj) (inverseDensity pi)) (pair_normal pi pj))).
Definition hit_j (s : settings) (d : num) (pi pj : particle) : particle :=
  set_pos (set_vel pj (vadd (p_vel pj) (vmull (nmul (pair_impulse s pi pj) (inverseDensity pj)) (pair_normal pi pj))))
          (vadd (p_pos pj) (vmull (nmul (pair_push s d pi pj) (inverseDensity pj)) (pair_normal pi pj))).
Definition skipped (pi pj : particle) : bool := is_type pj Fluid && (p_id pi <=? p_id pj).

Lemma collide_spec s i nb ps pi pj : nth_error ps i = Some pi -> vget ps (nb_id nb) = Ok pj -> Z.to_nat (nb_id nb) <> i ->
  collide s i nb ps = Ok (if skipped pi pj then ps else if nlt (nb_dist nb) (s_colDist s)
    then upd (upd ps i (hit_i s (nb_dist nb) pi pj)) (Z.to_nat (nb_id nb)) (hit_j s (nb_dist nb) pi pj) else ps).
Proof.
  intros Hi Hj Hne. unfold collide. rewrite (vget_nat _ _ _ Hi), Hj. simpl. fold (skipped pi pj).
  destruct (skipped pi pj); auto. destruct (nlt (nb_dist nb) (s_colDist s)); auto.
  apply vget_ok in Hj. destruct Hj as [J0 Hj].
  rewrite (vmod_nat _ _ _ _ Hi). simpl.
  set (j := Z.to_nat (nb_id nb)) in *. replace (nb_id nb) with (Z.of_nat j) by (subst j; lia).
  assert (Li : (i < length ps)%nat) by (apply nth_error_Some; congruence).
  assert (Lj : (j < length ps)%nat) by (apply nth_error_Some; congruence).
  erewrite vmod_nat; [|rewrite nth_upd_other by auto; exact Hj]. simpl.
  erewrite vmod_nat; [|rewrite nth_upd_other by auto; apply nth_upd_same; auto]. simpl.
  erewrite vmod_nat; [|rewrite nth_upd_other by auto; apply nth_upd_same; rewrite length_upd; auto]. simpl.
  f_equal. apply list_ext. intros k. rewrite !nth_upd.
  destruct (Nat.eqb_spec j k), (Nat.eqb_spec i k); subst; try congruence.
  - rewrite Hj. reflexivity.
  - rewrite Hi. reflexivity.
Qed.

Lemma collide_self s i nb ps pi : nth_error ps i = Some pi -> p_type pi = Fluid -> nb_id nb = Z.of_nat i ->
  collide s i nb ps = Ok ps.
Proof.
  intros Hi T Hj. unfold collide. rewrite Hj, (vget_nat _ _ _ Hi). simpl.
  rewrite (proj2 (is_type_eq _ _) T), Z.leb_refl. reflexivity.
Qed.

Lemma collide_evolves (Z : absorbs_zero) s i nb ps ps' :
  (forall p, nth_error ps i = Some p -> p_type p = Fluid) ->
  collide s i nb ps = Ok ps' -> Forall2 evolves ps ps'.
Proof.
  intros HF H. pose proof H as H0. unfold collide in H0. binds H0. binds H0. clear H0.
  apply vget_nat_inv in E. pose proof (HF _ E) as T. pose proof E0 as E1. apply vget_ok in E0. destruct E0 as [J0 Ej].
  destruct (Nat.eq_dec (Z.to_nat (nb_id nb)) i) as [e|ne].
  - rewrite (collide_self s i nb ps r) in H; auto; [|lia]. inv H. apply Forall2_same, evolves_refl.
  - rewrite (collide_spec _ _ _ _ _ _ E E1 ne) in H. inv H.
    destruct (skipped r r0); [apply Forall2_same, evolves_refl|].
    destruct (nlt _ _); [|apply Forall2_same, evolves_refl].
    eapply Forall2_trans; [apply evolves_trans| |].
    { apply (Forall2_upd evolves ps i r (hit_i s (nb_dist nb) r r0)); [apply evolves_refl|exact E|]. split; [unfold same_id; simpl; auto|intros n; contradiction]. }
    eapply Forall2_upd; [apply evolves_refl|rewrite nth_upd_other by auto; exact Ej|].
    split; [unfold same_id; simpl; auto|]. intros n. unfold hit_j. simpl.
    assert (I0 : inverseDensity r0 = nofZ 0).
    { unfold inverseDensity. now rewrite (proj2 (is_type_neq _ _) n). }
    rewrite I0, !vadd_zero by auto. auto.
Qed.

(** within one inner loop the particle at index i stays Fluid *)
Lemma collide_keeps_type s i nb ps ps' k p : collide s i nb ps = Ok ps' ->
  nth_error ps k = Some p -> exists p', nth_error ps' k = Some p' /\ p_type p' = p_type p /\ p_nbrs p' = p_nbrs p.
Proof.
  set (R := fun p p' : particle => p_type p' = p_type p /\ p_nbrs p' = p_nbrs p).
  assert (Rr : forall p, R p p) by (unfold R; auto).
  assert (Rt : forall p q r, R p q -> R q r -> R p r) by (unfold R; intros ? ? ? [] []; split; congruence).
  intros H Hp. assert (F : Forall2 R ps ps').
  { unfold collide in H. binds H. binds H.
    destruct (_ && _); [inv H; now apply Forall2_same|].
    destruct (nlt _ _); [|inv H; now apply Forall2_same].
    binds H. binds H. binds H.
    apply (vmod_R _ Rr) in E1, E2, E3, H; try (intros; unfold R; simpl; auto).
    repeat (eapply Forall2_trans; [exact Rt| |]; eauto). }
  destruct (Forall2_nth _ _ _ _ _ F Hp) as (p' & ? & ?). exists p'. auto.
Qed.

Lemma collision_evolves (Z : absorbs_zero) s ps ps' : collision s ps = Ok ps' -> Forall2 evolves ps ps'.
Proof.
  unfold collision. apply (foldM_R _ evolves_refl evolves_trans). intros i t t' H. unfold collision1 in H.
  binds H. destruct (negb (is_type r Fluid)) eqn:T; [inv H; apply Forall2_same, evolves_refl|].
  apply negb_false_iff, is_type_eq in T. apply vget_nat_inv in E.
  apply (foldM_inv (fun w => Forall2 evolves t w /\ forall p, nth_error w i = Some p -> p_type p = Fluid)) in H.
  - tauto.
  - split; [apply Forall2_same, evolves_refl|]. intros; congruence.
  - intros nb u u' _ [Hu Hf] Hc. split.
    + eapply Forall2_trans; [apply evolves_trans|exact Hu|]. eapply collide_evolves; eauto.
    + intros p Hp. destruct (nth_error u i) eqn:Eu.
      * destruct (collide_keeps_type _ _ _ _ _ _ _ Hc Eu) as (p' & Hp' & T' & _).
        assert (p' = p) by congruence. subst. rewrite T'. auto.
      * unfold collide in Hc. binds Hc. apply vget_nat_inv in E0. congruence.
Qed.

(** ** one step *)
Lemma step_rel (R : particle -> particle -> Prop) S m m' :
  (forall p, R p p) -> (forall p q r, R p q -> R q r -> R p r) ->
  (forall p q, evolves p q -> R p q) ->
  (forall s ps ps', collision s ps = Ok ps' -> Forall2 R ps ps') ->
  stepForward S m = Ok m' -> Forall2 R (m_ps m) (m_ps m').
Proof.
  intros Rr Rt RE RC H.
  assert (L : forall l l', Forall2 evolves l l' -> Forall2 R l l') by (intros; eapply Forall2_impl; eauto).
  assert (Tr : forall l1 l2 l3, Forall2 R l1 l2 -> Forall2 R l2 l3 -> Forall2 R l1 l3) by (intros; eapply Forall2_trans; eauto).
  unfold stepForward in H. binds H. destruct r as [ns1 ps1]. binds H. destruct r as [ns2 ps2]. binds H. destruct r as [ns3 ps3].
  binds H. destruct (calCourant (m_settings m) r) as [c err]. inv H. simpl.
  apply Tr with ps1; [|apply Tr with ps2; [|apply Tr with ps3]]; [clear E0 E1 E2|clear E E1 E2|clear E E0 E2|clear E E0 E1].
  - unfold stepMove in E. binds E. destruct r0 as [ns0 ps0]. binds E. inv E.
    apply setNeighbors_evolves, L in E0. apply calViscosity_evolves, L in E1.
    eapply Tr; [exact E0|]. eapply Tr; [apply L, calGravity_evolves|]. eapply Tr; [exact E1|].
    apply L, moveParticle_evolves.
  - unfold stepCollide in E0. binds E0. destruct r0 as [ns0 ps0]. binds E0. inv E0.
    apply setNeighbors_evolves, L in E. apply RC in E1. eapply Tr; eauto.
  - unfold stepPressure in E1. binds E1. destruct r0 as [ns0 ps0]. binds E1. binds E1. destruct r1 as [ps5 x]. binds E1. inv E1.
    apply setNeighbors_evolves, L in E. apply calNumberDensity_evolves, L in E0.
    apply calc_evolves, L in E2. apply assignPressure_evolves, L in E3.
    eapply Tr; [exact E|]. eapply Tr; [exact E0|]. eapply Tr; eauto.
  - unfold stepCorrect in E2. binds E2. binds E2.
    apply minp_evolves, L in E. apply calPressureGradient_evolves, L in E0.
    eapply Tr; [exact E|]. eapply Tr; [exact E0|]. eapply Tr; [apply L, (correct_evolves (m_settings m))|].
    destruct (m_calc m).
    + inv E2. apply Forall2_same. auto.
    + binds E2. apply assignPressure_evolves, L in E2. exact E2.
Qed.

Lemma step_same_id S m m' : stepForward S m = Ok m' -> Forall2 same_id (m_ps m) (m_ps m').
Proof.
  apply step_rel.
  - apply same_id_refl.
  - apply same_id_trans.
  - intros p q H; apply H.
  - apply collision_same_id.
Qed.

Lemma step_evolves (Z : absorbs_zero) S m m' : stepForward S m = Ok m' -> Forall2 evolves (m_ps m) (m_ps m').
Proof.
  apply step_rel; auto.
  - apply evolves_refl.
  - apply evolves_trans.
  - intros; now apply (collision_evolves Z) in H.
Qed.

(** what a step leaves alone in the rest of the object *)
Lemma step_static S m m' : stepForward S m = Ok m' ->
  m_settings m' = m_settings m /\ m_gravity m' = m_gravity m /\ m_calc m' = m_calc m /\
  m_rvN m' = m_rvN m /\ m_rvG m' = m_rvG m /\ m_rvL m' = m_rvL m.
Proof.
  unfold stepForward. intros H. binds H. destruct r. binds H. destruct r. binds H. destruct r. binds H.
  destruct (calCourant _ _). inv H. auto 10.
Qed.

Lemma steps_rel (R : particle -> particle -> Prop) S n m m' :
  (forall p, R p p) -> (forall p q r, R p q -> R q r -> R p r) ->
  (forall m m', stepForward S m = Ok m' -> Forall2 R (m_ps m) (m_ps m')) ->
  steps S n m m' -> Forall2 R (m_ps m) (m_ps m').
Proof.
  intros Rr Rt HS. induction 1.
  - now apply Forall2_same.
  - eapply Forall2_trans; eauto.
Qed.
End Frames.
