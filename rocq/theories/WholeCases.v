(** * Concrete cases for whole time steps: gravity by angle, an implicit step *)
From Coq Require Import Reals Lra.
From Verif Require Export WholeR SolverCases.
Open Scope R_scope.
#[local] Remove Hints F64 : typeclass_instances.

Definition set_tilted : @settings Rnum :=
  @mkS Rnum false 2 1 (1/100) 1 (1/10) (1/2) box10 (1/1000) 1000 false (@mkV Rnum 0 (-10) 0) (98/10) 90 (97/100) false (85/100)
       "implicit"%string (1/2) (1/5) 10 (5/4) (1/5) (3/2) (3/2) (3/2) (3/2) "input.csv"%string false.

Lemma steps_one {N : Num} S m m' : steps S 1 m m' -> stepForward S m = Ok m'.
Proof. intros H. inv H. inv H1. auto. Qed.

Lemma move_length (m : @mps Rnum) n ps : stepMove m = Ok (n, ps) -> List.length ps = List.length (m_ps m).
Proof.
  unfold stepMove. intros H. binds H. destruct r as [n1 p1]. binds H. inv H. symmetry.
  etransitivity; [eapply Forall2_length; eapply search_same_id; eauto|].
  etransitivity; [eapply Forall2_length, (calGravity_evolves (m_gravity m))|].
  etransitivity; [eapply Forall2_length, calViscosity_evolves; eauto|]. eapply Forall2_length, moveParticle_evolves.
Qed.
Lemma collide_length (m : @mps Rnum) n ps n' ps' : stepCollide m n ps = Ok (n', ps') -> List.length ps' = List.length ps.
Proof.
  unfold stepCollide. intros H. binds H. destruct r as [n1 p1]. binds H. inv H. symmetry.
  etransitivity; [eapply Forall2_length; eapply search_same_id; eauto|]. eapply Forall2_length, collision_same_id; eauto.
Qed.

(** the detector takes no particle for a surface particle, so that the single particle is an
    inner one *)
Definition det_none : @detector Rnum := @ByNumberDensity Rnum 0 4.
Lemma solo_implicit : exists (m : @mps Rnum) det q, ready m /\ m_calc m = Implicit det q /\ sensible (m_calc m) (s_reMax (m_settings m)) /\
  0 < q_compress q /\ (0 <= q_dim q)%Z /\ s_asserts (m_settings m) = false /\ q_asserts q = false /\ (forall p, In p (m_ps m) -> 0 < p_dens p) /\
  (forall n1 b n2 c n3 c1, stepMove m = Ok (n1, b) -> stepCollide m n1 b = Ok (n2, c) -> setNeighbors n2 c = Ok (n3, c1) -> apart c1).
Proof.
  assert (R0 : at_rest solo) by (intros p [<-|[]]; reflexivity).
  destruct (machine solo (Implicit det_none ppe2) solo_indexed R0) as (m & _ & RD & ES & EP & _ & EK). exists m, det_none, ppe2.
  rewrite ES, EP, EK. split; [exact RD|]. split; [reflexivity|]. split; [simpl; repeat split; lra|]. split; [simpl; lra|]. split; [simpl; lia|].
  split; [reflexivity|]. split; [reflexivity|]. split; [intros p [<-|[]]; simpl; lra|].
  intros n1 b n2 c n3 c1 H1 H2 H3. apply move_length in H1. apply collide_length in H2. apply search_same_id, Forall2_length in H3. rewrite EP in H1. simpl in H1.
  intros i j p q Hp Hq N. assert (i < 1)%nat by (rewrite <- H1, <- H2, H3; apply nth_error_Some; congruence).
  assert (j < 1)%nat by (rewrite <- H1, <- H2, H3; apply nth_error_Some; congruence). lia.
Qed.
