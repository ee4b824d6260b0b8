(** * Immobile particles (C15) and planar problems (C23) in doubles *)
From Coq Require Import PeanoNat.
From Verif Require Export SpecF Planar FloatFacts.

(** ** arithmetic with zeros *)
Ltac zn := repeat match goal with
  | H : zero_or_nan ?x |- _ => destruct H as [[? ->]|H]; [|destruct x; try discriminate H; clear H]
  end.
Lemma zn_add a b : zero_or_nan a -> zero_or_nan b -> zero_or_nan (@nadd F64 a b).
Proof. intros. zn; simpl; try (right; reflexivity). left. destruct (Bool.eqb _ _); eexists; reflexivity. Qed.
Lemma zn_sub a b : zero_or_nan a -> zero_or_nan b -> zero_or_nan (@nsub F64 a b).
Proof. intros. zn; simpl; try (right; reflexivity). left. unfold Bminus, Bopp. simpl. destruct (Bool.eqb _ _); eexists; reflexivity. Qed.
Lemma zn_mull a b : zero_or_nan a -> zero_or_nan (@nmul F64 a b).
Proof. intros. zn; destruct b; simpl; try (right; reflexivity); left; eexists; reflexivity. Qed.
Lemma zn_mulr a b : zero_or_nan b -> zero_or_nan (@nmul F64 a b).
Proof. intros. zn; destruct a; simpl; try (right; reflexivity); left; eexists; reflexivity. Qed.
Lemma zn_div a b : zero_or_nan a -> zero_or_nan (@ndiv F64 a b).
Proof. intros. zn; destruct b; simpl; try (right; reflexivity); left; eexists; reflexivity. Qed.
Lemma zn_0 : zero_or_nan (@nofZ F64 0).
Proof. left. exists false. reflexivity. Qed.

Lemma C23_F S n (m m' : @mps F64) : steps S n m m' -> sound m -> zero_or_nan (vz (m_gravity m)) -> planarF (m_ps m) -> planarF (m_ps m').
Proof. intros H SD G P. exact (@steps_flat F64 zero_or_nan zn_0 zn_add zn_sub zn_mull zn_mulr zn_div S n m m' H SD G P). Qed.

(** ** a particle that is not Fluid (C15) *)
Lemma kept_refl x : kept x x.
Proof. now left. Qed.
Lemma kept_trans x y z : kept x y -> kept y z -> kept x z.
Proof.
  intros A [->|[[[s ->] Z]|B]]; auto; [|now right; right]. destruct A as [<-|[[A _]|A]]; [right; left; split; auto; eexists; reflexivity|right; auto|discriminate A].
Qed.
Lemma kept_add x v : zero_or_nan v -> kept x (@nadd F64 x v).
Proof.
  intros. zn; destruct x as [s|s| |s m e H]; try (right; right; reflexivity); try (left; reflexivity).
  right; left. simpl. split; [eexists; reflexivity|]. destruct (Bool.eqb _ _); eexists; reflexivity.
Qed.

Section Kept.
Definition keeps (p p' : @particle F64) : Prop := same_id p p' /\ (p_type p <> Fluid -> kept3 (p_pos p) (p_pos p') /\ kept3 (p_vel p) (p_vel p')).

Lemma kept3_refl v : kept3 v v.
Proof. repeat split; apply kept_refl. Qed.
Lemma kept3_trans u v w : kept3 u v -> kept3 v w -> kept3 u w.
Proof. intros (A & B & C) (A' & B' & C'). repeat split; eapply kept_trans; eauto. Qed.
Lemma kept3_add u c n : kept3 u (vadd u (vmull (nmul c (nofZ 0)) n)).
Proof. repeat split; apply kept_add, zn_mull, zn_mulr, zn_0. Qed.

Lemma keeps_refl p : keeps p p.
Proof. split; [apply same_id_refl|]. split; apply kept3_refl. Qed.
Lemma keeps_trans p q r : keeps p q -> keeps q r -> keeps p r.
Proof.
  intros [A B] [C D]. split; [eapply same_id_trans; eauto|]. intros H. destruct (B H) as [B1 B2].
  assert (p_type q <> Fluid). { destruct A as (_ & _ & _ & [A|A]); rewrite A; auto. discriminate. }
  destruct (D H0) as [D1 D2]. split; eapply kept3_trans; eauto.
Qed.

Lemma collide_keeps s i nb ps ps' : (forall p, nth_error ps i = Some p -> p_type p = Fluid) ->
  collide s i nb ps = Ok ps' -> Forall2 keeps ps ps'.
Proof.
  intros HF H. pose proof H as H0. unfold collide in H0. binds H0. binds H0. clear H0.
  apply vget_nat_inv in E. pose proof (HF _ E) as T. pose proof E0 as E1. apply vget_ok in E0. destruct E0 as [J0 Ej].
  destruct (Nat.eq_dec (Z.to_nat (nb_id nb)) i) as [e|ne].
  - rewrite (collide_self s i nb ps r) in H; auto; [|lia]. inv H. apply Forall2_same, keeps_refl.
  - rewrite (collide_spec _ _ _ _ _ _ E E1 ne) in H.
    destruct (skipped r r0); [inv H; apply Forall2_same, keeps_refl|].
    destruct (@nlt F64 (nb_dist nb) (s_colDist s)); [|inv H; apply Forall2_same, keeps_refl]. inv H.
    eapply Forall2_trans; [apply keeps_trans| |].
    { apply (Forall2_upd keeps ps i r (hit_i s (nb_dist nb) r r0)); [apply keeps_refl|exact E|]. split; [unfold same_id; simpl; auto|intros n; contradiction]. }
    eapply Forall2_upd; [apply keeps_refl|rewrite nth_upd_other by auto; exact Ej|].
    split; [unfold same_id; simpl; auto|]. intros n. unfold hit_j. cbn [p_pos p_vel set_pos set_vel].
    assert (I0 : inverseDensity r0 = nofZ 0).
    { unfold inverseDensity. now rewrite (proj2 (is_type_neq _ _) n). }
    rewrite I0. split; apply kept3_add.
Qed.

Lemma collision_keeps s ps ps' : collision s ps = Ok ps' -> Forall2 keeps ps ps'.
Proof.
  unfold collision. apply (foldM_R _ keeps_refl keeps_trans). intros i t t' H. unfold collision1 in H.
  binds H. destruct (negb (is_type r Fluid)) eqn:T; [inv H; apply Forall2_same, keeps_refl|].
  apply negb_false_iff, is_type_eq in T. apply vget_nat_inv in E.
  apply (foldM_inv (fun w => Forall2 keeps t w /\ forall p, nth_error w i = Some p -> p_type p = Fluid)) in H.
  - tauto.
  - split; [apply Forall2_same, keeps_refl|]. intros; congruence.
  - intros nb u u' _ [Hu Hf] Hc. split.
    + eapply Forall2_trans; [apply keeps_trans|exact Hu|]. eapply collide_keeps; eauto.
    + intros p Hp. destruct (nth_error u i) eqn:Eu.
      * destruct (collide_keeps_type _ _ _ _ _ _ _ Hc Eu) as (p' & Hp' & T' & _).
        assert (p' = p) by congruence. subst. rewrite T'. auto.
      * unfold collide in Hc. binds Hc. apply vget_nat_inv in E0. congruence.
Qed.

Lemma C15_F S n (m m' : @mps F64) i p p' : steps S n m m' ->
  nth_error (m_ps m) i = Some p -> nth_error (m_ps m') i = Some p' -> p_type p <> Fluid ->
  kept3 (p_pos p) (p_pos p') /\ kept3 (p_vel p) (p_vel p').
Proof.
  intros H Hp Hp' T. cut (Forall2 keeps (m_ps m) (m_ps m')).
  { intros F. destruct (Forall2_nth_r _ _ _ _ _ F Hp') as (a & Ha & (_ & K)). assert (a = p) by congruence. subst a. auto. }
  revert H. apply steps_rel; [apply keeps_refl|apply keeps_trans|]. intros a b. apply step_rel; [apply keeps_refl|apply keeps_trans| |apply collision_keeps].
  intros x y [A B]. split; auto. intros Tx. destruct (B Tx) as [-> ->]. split; apply kept3_refl.
Qed.
End Kept.
