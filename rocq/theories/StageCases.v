(** * Concrete cases for the theorems about the stages of a time step

    A 10 x 10 box, particle distance 1, all radii 3/2, no assertions, explicit method
    (sound speed 10); two fluid particles approaching each other, a Wall beside them. *)
From Coq Require Import Reals Lra.
From Flocq Require Import Core.
From Verif Require Export TotalR.
Open Scope R_scope.
#[local] Remove Hints F64 : typeclass_instances.

Definition box10 : domR := @mkDom Rnum 0 10 0 10 0 0 10 10 0.
Definition set1 : @settings Rnum :=
  @mkS Rnum false 2 1 (1/100) 1 (1/10) (1/2) box10 (1/1000) 1000 true (@mkV Rnum 0 (-10) 0) 10 0 (97/100) false (85/100)
       "Explicit"%string (1/2) (1/5) 10 (5/4) (1/5) (3/2) (3/2) (3/2) (3/2) "input.csv"%string false.
Definition grav : vecR := @mkV Rnum 0 (-10) 0.
Definition kex : @calculator Rnum := @Explicit Rnum 4 10.

Definition at3 (id t : Z) (x y u : R) (l : list (@neighbor Rnum)) : partR :=
  set_nbrs (@newParticle Rnum id t (@mkV Rnum x y 0) (@mkV Rnum u 0 0) 1000 0) l.
Definition nb (j : Z) (d : R) : @neighbor Rnum := @mkNb Rnum j d.
(** two fluid particles at distance 1, moving towards each other *)
Definition pair_ (u0 u1 : R) : list partR := [ at3 0 Fluid 4 5 u0 [nb 1 1]; at3 1 Fluid 5 5 u1 [nb 0 1] ].
Definition duo : list partR := pair_ 1 (-1).
(** the same with a Wall particle next to the second *)
Definition trio : list partR := [ at3 0 Fluid 4 5 1 [nb 1 1]; at3 1 Fluid 5 5 (-1) [nb 0 1; nb 2 1]; at3 2 Wall 6 5 0 [nb 1 1] ].
(** a single one *)
Definition solo : list partR := [ at3 0 Fluid 4 5 1 [] ].

Lemma euclid_at id id' t t' x y u l x' u' l' r : 0 <= r -> (x - x') ^ 2 = r ^ 2 ->
  euclid (p_pos (at3 id t x y u l)) (p_pos (at3 id' t' x' y u' l')) = r.
Proof.
  intros Hr E. unfold euclid, at3. simpl p_pos. cbn [vx vy vz]. replace (_ + _ + _) with (r ^ 2) by (rewrite E; ring). now apply sqrt_pow2.
Qed.

Lemma duo_indexed : indexed duo.
Proof. intros [|[|[|i]]] p H; simpl in H; inv H; reflexivity. Qed.
Lemma trio_indexed : indexed trio.
Proof. intros [|[|[|[|i]]]] p H; simpl in H; inv H; reflexivity. Qed.
Lemma solo_indexed : indexed solo.
Proof. intros [|[|i]] p H; simpl in H; inv H; reflexivity. Qed.
Lemma duo_rest : at_rest duo.
Proof. intros p [<-|[<-|[]]]; reflexivity. Qed.
Lemma trio_rest : at_rest trio.
Proof. intros p [<-|[<-|[<-|[]]]]; reflexivity. Qed.
Lemma solo_rest : at_rest solo.
Proof. intros p [<-|[]]; reflexivity. Qed.
Lemma duo_dense : dense duo.
Proof. intros p [<-|[<-|[]]] _; simpl; lra. Qed.
Lemma trio_dense : dense trio.
Proof. intros p [<-|[<-|[<-|[]]]] _; simpl; lra. Qed.
Lemma trio_apart : apart trio.
Proof.
  intros [|[|[|[|i]]]] [|[|[|[|j]]]] p q Hp Hq N _ _; simpl in Hp, Hq; try congruence; inv Hp; inv Hq; intros X; apply (f_equal vx) in X; simpl in X; lra.
Qed.
Lemma pair_apart u0 u1 : apart (pair_ u0 u1).
Proof.
  intros [|[|[|i]]] [|[|[|j]]] p q Hp Hq N _ _; simpl in Hp, Hq; try congruence; inv Hp; inv Hq; intros X; apply (f_equal vx) in X; simpl in X; lra.
Qed.
Lemma duo_apart : apart duo.
Proof. apply pair_apart. Qed.
Lemma solo_apart : apart solo.
Proof. intros [|[|i]] [|[|j]] p q Hp Hq N; simpl in Hp, Hq; congruence. Qed.
Lemma trio_types : forall p, In p trio -> p_type p <> Ghost.
Proof. intros p [<-|[<-|[<-|[]]]]; discriminate. Qed.

Lemma pair_listed u0 u1 : listed (3/2) (pair_ u0 u1).
Proof.
  assert (E1 : euclid (p_pos (at3 0 Fluid 4 5 u0 [nb 1 1])) (p_pos (at3 1 Fluid 5 5 u1 [nb 0 1])) = 1) by (apply euclid_at; lra).
  assert (E2 : euclid (p_pos (at3 1 Fluid 5 5 u1 [nb 0 1])) (p_pos (at3 0 Fluid 4 5 u0 [nb 1 1])) = 1) by (apply euclid_at; lra).
  intros [|[|[|i]]] p H _; simpl in H; try discriminate; inv H; (split; [repeat constructor; simpl; tauto|]); intros n; split.
  - intros [<-|[]]. exists 1%nat. eexists. split; [reflexivity|]. split; [discriminate|]. split; [discriminate|]. rewrite E1. split; [lra|reflexivity].
  - intros ([|[|[|j]]] & q & Hq & N & _ & D & ->); simpl in Hq; try discriminate; try congruence; inv Hq. rewrite E1. left; reflexivity.
  - intros [<-|[]]. exists 0%nat. eexists. split; [reflexivity|]. split; [discriminate|]. split; [discriminate|]. rewrite E2. split; [lra|reflexivity].
  - intros ([|[|[|j]]] & q & Hq & N & _ & D & ->); simpl in Hq; try discriminate; try congruence; inv Hq. rewrite E2. left; reflexivity.
Qed.

Lemma duo_listed : listed (3/2) duo.
Proof. apply pair_listed. Qed.

Lemma trio_listed : listed (3/2) trio.
Proof.
  assert (EE : forall i j id id' t t' x x' u u' l l', (x - x') ^ 2 = 1 ^ 2 -> nb i (euclid (p_pos (at3 id t x 5 u l)) (p_pos (at3 id' t' x' 5 u' l'))) = nb j 1 <-> i = j).
  { intros. rewrite (euclid_at _ _ _ _ _ _ _ _ _ _ _ 1) by lra. unfold nb. split; [intros X; injection X; auto|intros ->; reflexivity]. }
  assert (D2 : forall id id' t t' x x' u u' l l', (x - x') ^ 2 = 2 ^ 2 -> euclid (p_pos (at3 id t x 5 u l)) (p_pos (at3 id' t' x' 5 u' l')) = 2) by (intros; apply euclid_at; lra).
  intros [|[|[|[|i]]]] p H _; simpl in H; try discriminate; inv H; (split; [repeat constructor; simpl; intuition discriminate|]); intros n; split.
  - intros [<-|[]]. exists 1%nat. eexists. split; [reflexivity|]. split; [discriminate|]. split; [discriminate|]. rewrite (euclid_at _ _ _ _ _ _ _ _ _ _ _ 1) by lra. split; [lra|reflexivity].
  - intros ([|[|[|[|j]]]] & q & Hq & N & _ & D & ->); simpl in Hq; try discriminate; try congruence; inv Hq.
    + left. rewrite (euclid_at _ _ _ _ _ _ _ _ _ _ _ 1) by lra. reflexivity.
    + rewrite (euclid_at _ _ _ _ _ _ _ _ _ _ _ 2) in D by lra. lra.
  - intros [<-|[<-|[]]]; [exists 0%nat|exists 2%nat]; eexists; (split; [reflexivity|]); (split; [discriminate|]); (split; [discriminate|]);
      rewrite (euclid_at _ _ _ _ _ _ _ _ _ _ _ 1) by lra; (split; [lra|reflexivity]).
  - intros ([|[|[|[|j]]]] & q & Hq & N & _ & D & ->); simpl in Hq; try discriminate; try congruence; inv Hq;
      rewrite (euclid_at _ _ _ _ _ _ _ _ _ _ _ 1) by lra; [left|right; left]; reflexivity.
  - intros [<-|[]]. exists 1%nat. eexists. split; [reflexivity|]. split; [discriminate|]. split; [discriminate|]. rewrite (euclid_at _ _ _ _ _ _ _ _ _ _ _ 1) by lra. split; [lra|reflexivity].
  - intros ([|[|[|[|j]]]] & q & Hq & N & _ & D & ->); simpl in Hq; try discriminate; try congruence; inv Hq.
    + rewrite (euclid_at _ _ _ _ _ _ _ _ _ _ _ 2) in D by lra. lra.
    + left. rewrite (euclid_at _ _ _ _ _ _ _ _ _ _ _ 1) by lra. reflexivity.
Qed.

(** ** simulator objects *)
Lemma set1_usable : usable set1.
Proof. unfold usable, proper_domain. simpl. split; [lra|]. split; [left; reflexivity|]. lra. Qed.
Lemma set1_fits : ((Zfloor (xLength (s_domain set1) / s_reMax set1) + 3) * (Zfloor (yLength (s_domain set1) / s_reMax set1) + 3) * (Zfloor (zLength (s_domain set1) / s_reMax set1) + 3) <= int_max)%Z.
Proof.
  simpl. rewrite (Zfloor_imp 6) by (simpl; lra). replace (0 / (3 / 2)) with (IZR 0) by lra. rewrite Zfloor_IZR. unfold int_max. lia.
Qed.
Lemma box10_searcher n : exists ns, @used_searcher Rnum (3/2) box10 n ns.
Proof.
  destruct (C04_lemma_R (3/2) box10 n ltac:(lra) (proj1 set1_usable) set1_fits) as [[ns E] _]. exists ns. now apply used_new.
Qed.

Lemma machine ps k : indexed ps -> at_rest ps -> exists m, @newMPS Rnum set1 ps grav k = Ok m /\ ready m /\ m_settings m = set1 /\ m_ps m = ps /\ m_gravity m = grav /\ m_calc m = k.
Proof.
  intros I A. destruct (newMPS_total set1 ps grav k set1_usable set1_fits) as [m E]. exists m. split; auto.
  split; [eapply newMPS_ready; eauto using set1_usable|]. unfold newMPS in E. binds E. binds E. binds E. binds E. inv E. auto.
Qed.

Definition no_solver : @solver Rnum := fun _ _ _ => None.
Lemma no_solver_sized : sized no_solver.
Proof. intros n ts b x H. discriminate H. Qed.

(** any number of steps *)
Lemma runs ps n : indexed ps -> at_rest ps -> exists m m', ready m /\ m_settings m = set1 /\ m_ps m = ps /\ m_gravity m = grav /\ m_calc m = kex /\ steps no_solver n m m'.
Proof.
  intros I A. destruct (machine ps kex I A) as (m & _ & RD & ES & EP & EG & EK).
  destruct (C51_run_lemma no_solver n m RD no_solver_sized) as [m' H]; [now rewrite ES|intros det q K; rewrite EK in K; discriminate|]. exists m, m'. auto 8.
Qed.

(** ** one step of the single particle *)
Lemma solo_alone ps : List.length ps = 1%nat -> (forall p, nth_error ps 0 = Some p -> p_type p = Fluid /\ in_box box10 (p_pos p)) -> alone box10 (3/2) 0 ps.
Proof.
  intros L H. destruct ps as [|p [|q r]]; try discriminate. destruct (H p eq_refl) as [T B]. exists p. split; auto. split; auto. split; auto.
  intros [|[|j]] q Hq N; simpl in Hq; congruence.
Qed.

Lemma solo_falls : exists m m', ready m /\ m_ps m = solo /\ lone_steps no_solver 0 1 m m'.
Proof.
  destruct (machine solo kex solo_indexed solo_rest) as (m & _ & RD & ES & EP & EG & EK).
  destruct (C51_run_lemma no_solver 1 m RD no_solver_sized) as [m' H]; [now rewrite ES|intros det q K; rewrite EK in K; discriminate|].
  exists m, m'. split; auto. split; auto. inversion H as [|n a m1 b H0 HF]; subst. inversion H0; subst. clear H H0.
  destruct (C17_prediction_lemma m1 RD) as (ns & ps1 & ns1 & ps2 & E1 & EM & L2 & Q); [rewrite EP; apply solo_apart|].
  assert (A1 : alone box10 (3/2) 0 (m_ps m1)).
  { apply solo_alone; rewrite EP; auto. intros p Hp. inv Hp. split; auto. unfold in_box. simpl. lra. }
  pose proof RD as ((I & _ & US) & (PD & _) & _). 
  assert (A1' : alone (s_domain (m_settings m1)) (s_reMax (m_settings m1)) 0 (m_ps m1)) by now rewrite ES.
  destruct (alone_search _ _ _ _ _ _ _ (ready_reMax m1 RD) PD US I E1 A1') as (p & Hp & Hp1 & T & _).
  rewrite EP in Hp. inv Hp. destruct (Q 0%nat _ Hp1) as (p2 & Hp2 & _ & F). destruct (F eq_refl) as (T2 & V2 & X2). clear Q F.
  assert (L1 : List.length ps1 = 1%nat).
  { apply setNeighbors_evolves, Forall2_length in E1. now rewrite EP in E1. }
  assert (SH : shear (s_reL (m_settings m1)) ps1 0 (set_nbrs (at3 0 Fluid 4 5 1 []) []) = zeroR).
  { unfold shear, sumv, sum_others. rewrite L1. simpl seq. cbn [map]. destruct ps1 as [|a [|]]; try discriminate L1. simpl. unfold zeroR. f_equal; ring. }
  rewrite SH, EG, ES in V2. rewrite ES in X2. simpl in V2. rewrite V2 in X2. simpl in X2.
  assert (A2 : alone box10 (3/2) 0 ps2).
  { apply solo_alone; [lia|]. intros p H. rewrite Hp2 in H. inv H. split; auto. rewrite X2. unfold in_box, grav, zeroR, addR, scaleR. simpl. lra. }
  assert (A2' : alone (s_domain (m_settings m1)) (s_reMax (m_settings m1)) 0 ps2) by now rewrite ES.
  pose proof HF as HF'. unfold stepForward in HF'. rewrite EM in HF'. cbn [bind] in HF'. binds HF'. destruct r as [ns3 ps3].
  assert (A3 : alone box10 (3/2) 0 ps3).
  { pose proof E as E'. unfold stepCollide in E'. binds E'. destruct r as [na pa]. binds E'. inv E'.
    assert (U2 : used_searcher (s_reMax (m_settings m1)) (s_domain (m_settings m1)) (List.length ps2) ns1) by (eapply move_searcher; eauto).
    assert (I2 : indexed ps2) by (eapply move_indexed; eauto).
    destruct (alone_search _ _ _ _ _ _ _ (ready_reMax m1 RD) PD U2 I2 E0 A2') as (p & Hp & Hp' & T' & NN).
    rewrite Hp2 in Hp. inv Hp. pose proof (alone_collision _ _ _ _ _ E2 Hp' eq_refl NN) as Hp3.
    apply solo_alone.
    - apply collision_same_id, Forall2_length in E2. apply setNeighbors_evolves, Forall2_length in E0. lia.
    - intros x Hx. rewrite Hp3 in Hx. inv Hx. split; auto. simpl. rewrite X2. unfold in_box, grav, zeroR, addR, scaleR. simpl. lra. }
  eapply lone_S; [constructor|exact HF|exact EM|exact E|exact A1'|exact A2'|]. now rewrite ES.
Qed.
