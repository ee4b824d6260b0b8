(** * The whole time step in exact arithmetic (C52, C53) *)
From Coq Require Import Reals Lra PeanoNat.
From Verif Require Export SpecStep GradientR CollisionTrace CollisionR PressureR ExplicitFacts SafetyFacts FallR.
Open Scope R_scope.
#[local] Remove Hints F64 : typeclass_instances.

(** ** the search *)
Lemma outside_box (d : domR) x : @outside Rnum d x <-> ~ in_box d x.
Proof.
  unfold outside, in_box. simpl nlt. rewrite !Rlt_bool_iff. split; [lra|]. intros H.
  destruct (Rlt_dec (vx x) (xMin d)); auto. destruct (Rlt_dec (xMax d) (vx x)); auto.
  destruct (Rlt_dec (vy x) (yMin d)); auto. destruct (Rlt_dec (yMax d) (vy x)); auto 6.
  destruct (Rlt_dec (vz x) (zMin d)); auto 7. destruct (Rlt_dec (zMax d) (vz x)); auto 8. exfalso. apply H. lra.
Qed.

Lemma search_swept re d ns (ps : list partR) ns' ps' : used_searcher re d (List.length ps) ns -> setNeighbors ns ps = Ok (ns', ps') -> swept d ps ps'.
Proof.
  intros U E. destruct (search_frame _ _ _ _ _ _ U E) as [Ln HF]. apply Forall2_of_nth; auto.
  intros i p p' Hp Hp'. destruct (HF i p Hp) as (p1 & Hp1 & F1 & F2 & F3). assert (p1 = p') by congruence. subst p1.
  destruct (Z.eq_dec (p_type p) Ghost) as [e|n].
  - rewrite F1 by auto. split; [exists (p_type p), (p_nbrs p); now destruct p|]. split; auto.
  - assert (D : in_box d (p_pos p) \/ ~ in_box d (p_pos p)).
    { unfold in_box. destruct (Rle_dec (xMin d) (vx (p_pos p))), (Rle_dec (vx (p_pos p)) (xMax d)), (Rle_dec (yMin d) (vy (p_pos p))), (Rle_dec (vy (p_pos p)) (yMax d)),
        (Rle_dec (zMin d) (vz (p_pos p))), (Rle_dec (vz (p_pos p)) (zMax d)); try (left; tauto); right; tauto. }
    destruct D as [D|D].
    + destruct F3 as [l ->]; auto. { rewrite outside_box. tauto. }
      split; [exists (p_type p), l; now destruct p|]. split; auto. intros NA. exfalso. apply NA. split; auto.
    + rewrite F2 by (auto; now apply outside_box). split; [exists Ghost, (p_nbrs p); now destruct p|]. split; auto. intros [_ A]. contradiction.
Qed.

(** ** the prediction *)
Lemma move_predicted (m : @mps Rnum) ns a ns' b : ready m -> setNeighbors (m_ns m) (m_ps m) = Ok (ns, a) -> apart a -> stepMove m = Ok (ns', b) ->
  predicted (m_settings m) (m_gravity m) (rv_n0 (m_rvL m)) (rv_lambda (m_rvL m)) a b.
Proof.
  intros Rd E A H. destruct (prediction_run m ns a Rd E A) as (b' & E2 & L & K). rewrite H in E2. inv E2. split; auto.
  unfold stepMove in H. rewrite E in H. cbn [bind] in H. binds H. inv H.
  assert (SI : Forall2 same_id a (moveParticle (m_settings m) r)).
  { eapply Forall2_trans; [apply same_id_trans|eapply Forall2_impl; [|apply (calGravity_evolves (m_gravity m))]; intros ? ? X; apply X|].
    eapply Forall2_trans; [apply same_id_trans|eapply Forall2_impl; [|eapply calViscosity_evolves; eauto]; intros ? ? X; apply X|].
    eapply Forall2_impl; [|apply moveParticle_evolves]; intros ? ? X; apply X. }
  intros i p Hp. destruct (K i p Hp) as (p' & Hp' & N1 & F1). exists p'. split; auto.
  destruct (Forall2_nth _ _ _ _ _ SI Hp) as (p2 & Hp2 & (_ & D & _)). assert (p2 = p') by congruence. subst p2.
  split. { destruct (Z.eq_dec (p_type p) Fluid) as [e|n]; [destruct (F1 e); congruence|apply N1; auto]. }
  split; auto. split; [intros n; now destruct (N1 n)|]. intros e. destruct (F1 e) as (_ & V & X). split; auto.
Qed.

(** ** collisions *)
Lemma normal_zero (pi pj : partR) : p_pos pi = p_pos pj -> pair_normal pi pj = zeroR.
Proof.
  intros E. unfold pair_normal, vnormalized. rewrite vsub_diff, E. set (d := diffR _ _).
  assert (Z : d = zeroR) by (apply vec_eq; simpl; ring). rewrite Z. change (@vsqnorm Rnum zeroR) with (dotR zeroR zeroR).
  simpl nlt. rewrite Rlt_bool_false; auto. unfold dotR. simpl. lra.
Qed.
Lemma upd_id {A} (l : list A) i a : nth_error l i = Some a -> upd l i a = l.
Proof. revert i. induction l as [|x l IH]; intros [|i] H; simpl in *; try discriminate; [now inv H|]. now rewrite IH. Qed.

Lemma collide_bumped (s : @settings Rnum) i j d (u u' : list partR) p q :
  nth_error u i = Some p -> nth_error u j = Some q -> i <> j -> p_type p = Fluid -> (p_type q = Fluid -> (p_id q < p_id p)%Z) ->
  0 < p_dens p -> (p_type q = Fluid -> 0 < p_dens q) -> d < s_colDist s ->
  collide s i (@mkNb Rnum (Z.of_nat j) d) u = Ok u' -> bumped (s_restitution s) (s_colDist s) d i j u u'.
Proof.
  intros Hp Hq N Tp Tq Dp Dq Hd H. exists p, q. split; auto. split; auto. split.
  - intros E. rewrite (collide_spec s i _ u p q Hp) in H; [|now apply vget_nat|simpl; rewrite Nat2Z.id; auto].
    simpl nb_id in H. simpl nb_dist in H. rewrite Nat2Z.id in H.
    unfold skipped in H. replace (is_type q Fluid && (p_id p <=? p_id q))%Z with false in H.
    2: { unfold is_type. destruct (Z.eqb_spec (p_type q) Fluid); auto. simpl. symmetry. apply Z.leb_gt. auto. }
    simpl nlt in H. rewrite Rlt_bool_true in H by auto. inv H.
    assert (HI : hit_i s d p q = p).
    { unfold hit_i. rewrite (normal_zero _ _ E). transitivity (set_pos (set_vel p (p_vel p)) (p_pos p)); [|now destruct p].
      f_equal; [f_equal|]; apply vec_eq; simpl; ring. }
    assert (HJ : hit_j s d p q = q).
    { unfold hit_j. rewrite (normal_zero _ _ E). transitivity (set_pos (set_vel q (p_vel q)) (p_pos q)); [|now destruct q].
      f_equal; [f_equal|]; apply vec_eq; simpl; ring. }
    rewrite HI, HJ, (upd_id u i p Hp). now apply upd_id.
  - intros NE. destruct (C11_lemma s i j d u p q Hp Hq N Tp Tq Dp Dq NE Hd) as (vi & vj & xi & xj & a & b & al & be & E & _ & A1 & A2 & A3 & A4 & A5 & A6 & A7 & A8 & A9 & A10 & A11 & A12 & A13).
    rewrite H in E. inv E. eexists _, _, a, b, al, be. split; [reflexivity|]. auto 20.
Qed.

Lemma trace_bumps (s : @settings Rnum) (ps : list partR) : indexed ps -> dense ps ->
  forall tr u u', foldM (fun e => collide s (fst e) (snd e)) tr u = Ok u' -> Forall2 keep ps u -> Forall2 same_id ps u ->
  (forall i nb, In (i, nb) tr -> exists p q, nth_error ps i = Some p /\ nth_error ps (Z.to_nat (nb_id nb)) = Some q /\ Z.to_nat (nb_id nb) <> i /\ (0 <= nb_id nb)%Z /\
     p_type p = Fluid /\ (p_type q = Fluid -> (nb_id nb < Z.of_nat i)%Z) /\ nb_dist nb < s_colDist s /\ nb_dist nb = euclid (p_pos p) (p_pos q)) ->
  bumps (s_restitution s) (s_colDist s) ps (map (fun e => (fst e, Z.to_nat (nb_id (snd e)))) tr) u u'.
Proof.
  intros ID DN tr. induction tr as [|[i nb] tr IH]; intros u u' H K SI HT; simpl in *; [now inv H|].
  binds H. destruct (HT i nb (or_introl eq_refl)) as (p & q & Hp & Hq & N & Z0 & Tp & Tq & Hd & He).
  set (j := Z.to_nat (nb_id nb)) in *. exists r, (nb_dist nb). split.
  { intros p1 q1 Hp1 Hq1. rewrite Hp in Hp1. inv Hp1. rewrite Hq in Hq1. inv Hq1. exact He. }
  assert (NB : nb = @mkNb Rnum (Z.of_nat j) (nb_dist nb)). { unfold j. rewrite Z2Nat.id by auto. now destruct nb. }
  split.
  - destruct (Forall2_nth _ _ _ _ _ K Hp) as (p' & Hp' & (T1 & _)). destruct (Forall2_nth _ _ _ _ _ K Hq) as (q' & Hq' & (T2 & _)).
    destruct (Forall2_nth _ _ _ _ _ SI Hp) as (p2 & Hp2 & (I1 & D1 & _)). destruct (Forall2_nth _ _ _ _ _ SI Hq) as (q2 & Hq2 & (I2 & D2 & _)).
    assert (p2 = p') by congruence. assert (q2 = q') by congruence. subst p2 q2.
    eapply (collide_bumped s i j _ u r p' q'); eauto; try congruence.
    + intros T. rewrite I1, I2, (ID _ _ Hp), (ID _ _ Hq). rewrite T2 in T. specialize (Tq T). unfold j. rewrite Z2Nat.id; auto.
    + rewrite D1. apply DN; eauto using nth_error_In.
    + intros T. rewrite D2. apply DN; eauto using nth_error_In. congruence.
  - apply IH; auto.
    + eapply Forall2_trans; [apply keep_trans|exact K|]. eapply collide_keep; eauto.
    + eapply Forall2_trans; [apply same_id_trans|exact SI|]. eapply collide_same_id; eauto.
Qed.

Lemma collision_collided (s : @settings Rnum) (ps ps' : list partR) : listed (s_reMax s) ps -> indexed ps -> dense ps ->
  collision s ps = Ok ps' -> collided s ps ps'.
Proof.
  intros L ID DN H.
  destruct (C14_trace s ps ps' ID) as (tr & F & IN & ND); auto.
  { intros p Hp T. apply In_nth_error in Hp. destruct Hp as [i Hp]. apply (L i p Hp). rewrite T. discriminate. }
  assert (KT : forall i nb, In (i, nb) tr -> exists p q, nth_error ps i = Some p /\ nth_error ps (Z.to_nat (nb_id nb)) = Some q /\ Z.to_nat (nb_id nb) <> i /\ (0 <= nb_id nb)%Z /\
     p_type p = Fluid /\ (p_type q = Fluid -> (nb_id nb < Z.of_nat i)%Z) /\ nb_dist nb < s_colDist s /\ nb_dist nb = euclid (p_pos p) (p_pos q)).
  { intros i nb Hin. apply IN in Hin. destruct Hin as (p & q & Hp & T & Hnb & Hq & Tq & Hd). exists p, q. simpl nlt in Hd. apply Rlt_bool_iff in Hd.
    assert (TG : p_type p <> Ghost) by (rewrite T; discriminate).
    destruct (proj1 (proj2 (L i p Hp TG) nb) Hnb) as (j & q' & Hq' & N & _ & _ & ->). simpl in *. rewrite Nat2Z.id in *. rewrite Hq in Hq'. inv Hq'.
    repeat split; auto. lia. }
  exists (map (fun e => (fst e, Z.to_nat (nb_id (snd e)))) tr). split; [|split].
  - rewrite map_map. simpl. clear - ND KT. revert ND. induction tr as [|[i nb] tr IH]; intros ND; simpl in *; [constructor|]. inv ND. constructor; [|apply IH; auto].
    intros Hin. apply H1. apply in_map_iff in Hin. destruct Hin as ([k nb'] & E & Hin). apply in_map_iff. exists (k, nb'). split; auto. simpl in *.
    destruct (KT i nb (or_introl eq_refl)) as (_ & _ & _ & _ & _ & Z1 & _). destruct (KT k nb' (or_intror Hin)) as (_ & _ & _ & _ & _ & Z2 & _).
    injection E as E1 E2. f_equal; lia.
  - intros i j. rewrite in_map_iff. split.
    + intros ([i' nb] & E & Hin). simpl in E. injection E as -> <-. destruct (KT _ _ Hin) as (p & q & Hp & Hq & N & Z0 & Tp & Tq & Hd & He). exists p, q.
      apply IN in Hin. destruct Hin as (p' & q' & Hp' & _ & Hnb & _). rewrite Hp in Hp'. inv Hp'.
      assert (TG : p_type p' <> Ghost) by (rewrite Tp; discriminate).
      destruct (proj1 (proj2 (L i p' Hp TG) nb) Hnb) as (j & r & Hr & _ & TR & Hr2 & ->). simpl in *. rewrite Nat2Z.id in *. rewrite Hq in Hr. inv Hr.
      repeat split; auto. intros T. specialize (Tq T). lia.
    + intros (p & q & Hp & Hq & N & Tp & TG & Tq & H1 & H2). exists (i, @mkNb Rnum (Z.of_nat j) (euclid (p_pos p) (p_pos q))). simpl. rewrite Nat2Z.id. split; auto.
      apply IN. exists p, q. simpl. rewrite Nat2Z.id. repeat split; auto.
      * apply (L i p Hp); [rewrite Tp; discriminate|]. exists j, q. auto 10.
      * intros T. specialize (Tq T). lia.
      * now apply Rlt_bool_iff.
  - apply trace_bumps; auto; apply Forall2_same; [apply keep_refl|apply same_id_refl].
Qed.

(** ** pressures *)
Lemma density_counted (s : @settings Rnum) rs (ps ps' : list partR) : listed rs ps -> apart ps -> s_reN s <= rs ->
  calNumberDensity s (s_reN s) ps = Ok ps' -> counted (s_reN s) ps ps' /\ listed rs ps' /\ apart ps'.
Proof.
  intros L A Hr H. destruct (calNumberDensity_R s (s_reN s) rs ps L A Hr) as (p2 & E & Ln & K). rewrite H in E. inv E.
  assert (M : forall i p, nth_error ps i = Some p -> exists v, nth_error p2 i = Some (set_nd p v) /\ (p_type p = Ghost -> v = 0) /\
    (p_type p <> Ghost -> v = sum_others ps i (fun _ q => w_spec (s_reN s) (euclid (p_pos p) (p_pos q))))).
  { intros i p Hp. destruct (K i p Hp) as (p' & Hp' & G1 & G2). destruct (Z.eq_dec (p_type p) Ghost) as [e|n].
    - exists 0. rewrite <- (G1 e). repeat split; auto. congruence.
    - eexists. rewrite <- (G2 n). repeat split; eauto. congruence. }
  assert (FM : Forall2 (fun p p' => exists v, p' = set_nd p v) ps p2).
  { apply Forall2_of_nth; auto. intros i a b Ha Hb. destruct (M i a Ha) as (v & Hv & _). exists v. congruence. }
  split; [|split].
  - split; auto. intros i p Hp. destruct (M i p Hp) as (v & Hv & G1 & G2). eexists. split; [exact Hv|]. simpl. repeat split; auto.
  - eapply listed_ext; [|exact L]. clear - FM. induction FM as [|x y l l' [v ->] F IH]; simpl; auto. now rewrite IH.
  - intros i j p q Hp Hq N Tp Tq. destruct (Forall2_nth_r _ _ _ _ _ FM Hp) as (p0 & Hp0 & v & ->). destruct (Forall2_nth_r _ _ _ _ _ FM Hq) as (q0 & Hq0 & w & ->).
    simpl in *. eapply (A i j); eauto.
Qed.

(** sums and relations that only look at places, types and number densities *)
Definition alike (p p' : partR) : Prop := p_type p' = p_type p /\ p_pos p' = p_pos p /\ p_nd p' = p_nd p /\ p_dens p' = p_dens p.
Lemma sum_others_rel (Q : partR -> partR -> Prop) ps ps' i f g : Forall2 Q ps ps' -> (forall q q', Q q q' -> p_type q' = p_type q) ->
  (forall j q q', nth_error ps j = Some q -> nth_error ps' j = Some q' -> Q q q' -> f j q = g j q') -> sum_others ps i f = sum_others ps' i g.
Proof.
  intros F T K. unfold sum_others. rewrite (Forall2_length _ _ _ F). apply rsum_ext. intros j _.
  destruct (nth_error ps j) as [q|] eqn:Hq.
  - destruct (Forall2_nth _ _ _ _ _ F Hq) as (q' & Hq' & Qq). rewrite Hq', (T _ _ Qq). destruct (_ || _); eauto.
  - destruct (nth_error ps' j) as [q'|] eqn:Hq'; auto. destruct (Forall2_nth_r _ _ _ _ _ F Hq') as (q & Hq2 & _). congruence.
Qed.
Lemma sumv_rel (Q : partR -> partR -> Prop) ps ps' i f g : Forall2 Q ps ps' -> (forall q q', Q q q' -> p_type q' = p_type q) ->
  (forall j q q', nth_error ps j = Some q -> nth_error ps' j = Some q' -> Q q q' -> f j q = g j q') -> sumv ps i f = sumv ps' i g.
Proof. intros F T K. unfold sumv. f_equal; apply (sum_others_rel Q); auto; intros j q q' A B C; now rewrite (K j q q' A B C). Qed.

Lemma surface_ext det re ps ps' i p p' : Forall2 alike ps ps' -> alike p p' -> surface det re ps i p -> surface det re ps' i p'.
Proof.
  intros F (T & X & D & _) H. unfold surface in *. destruct det; rewrite D; auto. destruct H as [H1 H2]. split; auto.
  assert (OS : offset_sum re ps' i p' = offset_sum re ps i p).
  { symmetry. apply (sumv_rel alike); auto; [intros ? ? (? & _); auto|]. intros j q q' _ _ (T1 & X1 & _). now rewrite X, X1. }
  rewrite OS. destruct H2 as [H2|H2]; auto. left. intros j q' Hq' N TG. destruct (Forall2_nth_r _ _ _ _ _ F Hq') as (q & Hq & (T1 & X1 & _)).
  rewrite X, X1. apply (H2 j q); congruence.
Qed.

Lemma alike_sym ps ps' : Forall2 alike ps ps' -> Forall2 alike ps' ps.
Proof. induction 1; constructor; auto. destruct H as (? & ? & ? & ?). repeat split; auto. Qed.

Lemma assign_nth (x : list R) (ps ps' : list partR) : indexed ps -> assignPressure x ps = Ok ps' ->
  List.length ps' = List.length ps /\ forall i p, nth_error ps i = Some p -> exists v, nth_error x i = Some v /\ nth_error ps' i = Some (set_press p v).
Proof.
  intros ID H. rewrite assignPressure_mapM in H. apply mapM_ok in H. split; [symmetry; eapply Forall2_length; eauto|].
  intros i p Hp. destruct (Forall2_nth _ _ _ _ _ H Hp) as (p' & Hp' & E). binds E. inv E. rewrite (ID _ _ Hp) in E0. apply vget_nat_inv in E0. eauto.
Qed.

Lemma explicit1_R (n0 c : R) (p : partR) : 0 < n0 -> 0 <= p_dens p ->
  @explicit1 Rnum n0 c p = if (p_type p =? Ghost)%Z then 0 else Rmax 0 (c ^ 2 * p_dens p * ((p_nd p - n0) / n0)).
Proof.
  intros H0 Hd. unfold explicit1, is_type. destruct (p_type p =? Ghost)%Z; auto.
  assert (K : 0 <= c ^ 2 * p_dens p) by (apply Rmult_le_pos; auto; apply pow2_ge_0).
  assert (V : 0 < / n0) by now apply Rinv_0_lt_compat.
  simpl nlt. destruct (Rlt_bool_spec n0 (p_nd p)) as [l|l].
  - rewrite Rmax_right; [simpl; unfold Rdiv; ring|]. apply Rmult_le_pos; auto. unfold Rdiv. apply Rmult_le_pos; lra.
  - rewrite Rmax_left; [reflexivity|]. assert (A : (p_nd p - n0) / n0 <= 0).
    { unfold Rdiv. replace 0 with (0 * / n0) by ring. apply Rmult_le_compat_r; simpl in *; lra. }
    replace 0 with (c ^ 2 * p_dens p * 0) by ring. now apply Rmult_le_compat_l.
Qed.

(** the Poisson equation, particle by particle *)
Lemma implicit_solved (S : @solver Rnum) det q rs (ps ps' : list partR) y : listed rs ps -> indexed ps -> apart ps -> q_reL q <= rs -> exact_solver S ->
  implicitCalc S det q ps = Ok (ps', y) ->
  Forall2 (fun p p' => p' = set_bc p (p_bc p')) ps ps' /\ List.length y = List.length ps /\
  exists x : nat -> R, forall i p, nth_error ps i = Some p -> nth_error y i = Some (Rmax 0 (x i)) /\
      let inner := p_type p <> Ghost /\ p_type p <> DummyWall /\ ~ surface det rs ps i p in
      (~ inner -> x i = 0) /\
      (inner ->
         sum_others ps i (fun j r => if (p_type r =? DummyWall)%Z then 0 else
           2 * IZR (q_dim q) / (q_n0L q * q_lambda q) * w_spec (q_reL q) (euclid (p_pos p) (p_pos r)) / p_dens p * (x i - x j))
         + q_compress q / q_dt q ^ 2 * x i
         = q_gamma q / q_dt q ^ 2 * ((p_nd p - q_n0N q) / q_n0N q)).
Proof.
  intros L I A Hr ES H. unfold implicitCalc in H. binds H. destruct r as [ps1 d]. binds H. inv H. apply generate_R in E. destruct E as [E ->].
  destruct (bc_frame det rs ps ps' L I A E) as (L' & I' & A' & LN & GB & M).
  destruct (C29_lemma det rs ps L) as (ps1 & E1 & _ & HB). rewrite E in E1. inv E1. rename ps1 into ps'.
  assert (GI : forall p, In p ps' -> p_type p = Ghost -> p_bc p <> Inner) by (intros a Ha T; rewrite (GB a Ha); auto; discriminate).
  unfold ppe_solve in E0. rewrite (setup_build q rs ps' L' I' A' GI) in E0. cbn [bind] in E0. destruct (S _ _ _) as [y|] eqn:EY; inv E0.
  apply ES in EY. destruct EY as (LY & _ & EQ). assert (LY' : List.length r = List.length ps') by exact LY.
  split; auto. split; [unfold removeNegative; rewrite map_length; congruence|].
  exists (fun j => @nth R j r 0). intros i p Hp.
  destruct (HB i p Hp) as (b & Hb & B1 & B2 & B3). set (p' := set_bc p b) in *.
  assert (Hi : (i < List.length ps')%nat) by (apply nth_error_Some; congruence).
  specialize (EQ i Hi). rewrite (row_equation q rs ps' L' I' GI (fun j => @nth R j r 0) i p' Hb) in EQ.
  destruct (nth_error_ext_length r i) as [v Hv]; [congruence|].
  split.
  { unfold removeNegative. rewrite BaseFacts.nth_error_map, Hv. simpl. f_equal. rewrite (nth_error_nth _ _ _ Hv). simpl. unfold Rmax.
    destruct (Rlt_bool_spec v 0), (Rle_dec 0 v); lra. }
  assert (R0 : nth i (map (rhs q) ps') 0 = rhs q p').
  { erewrite nth_error_nth; [reflexivity|]. now rewrite BaseFacts.nth_error_map, Hb. }
  rewrite R0 in EQ. unfold rhs in EQ. change (p_bc p') with b in EQ. split.
  - intros NI. destruct (fs_eqb b Inner) eqn:EB; [|exact EQ]. exfalso. apply NI, B3. now apply fs_eqb_eq.
  - intros NI. assert (BI : b = Inner) by (now apply B3). rewrite BI in EQ. cbn [fs_eqb] in EQ.
    assert (TG : p_type p' <> Ghost) by (unfold p'; simpl; tauto).
    rewrite rsum_filter in EQ.
    set (F := fun (j : nat) (r0 : partR) => if (p_type r0 =? DummyWall)%Z then 0 else
        2 * IZR (q_dim q) / (q_n0L q * q_lambda q) * w_spec (q_reL q) (euclid (p_pos p) (p_pos r0)) / p_dens p * (nth i r 0 - nth j r 0)).
    assert (SE : rsum (map (fun nb => if kept q ps' nb then conduct q p' nb * (nth i r 0 - nth (Z.to_nat (nb_id nb)) r 0) else 0) (p_nbrs p')) =
                 sum_others ps i F).
    { transitivity (rsum (map (fun nb => match nth_error ps' (Z.to_nat (nb_id nb)) with Some pk => F (Z.to_nat (nb_id nb)) pk | None => 0 end) (p_nbrs p'))).
      - apply rsum_ext. intros nb Hn. destruct (listed_get rs ps' i p' nb L' Hb TG Hn) as (k & pk & X1 & _ & X3 & Nk & Tk & X4 & X5).
        unfold kept. rewrite X1, Nat2Z.id, X3. unfold F.
        assert (IG : fs_eqb (p_bc pk) Ignored = (p_type pk =? DummyWall)%Z).
        { apply eq_true_iff_eq. rewrite fs_eqb_eq, Z.eqb_eq. split; [|intros; apply GB; auto; eapply nth_error_In; eauto].
          destruct (Forall2_nth_r _ _ _ _ _ M X3) as (a & Ha & Ea). destruct (HB k a Ha) as (c & Hc & HI & _). rewrite X3 in Hc. inv Hc. simpl in *. tauto. }
        rewrite IG. destruct (p_type pk =? DummyWall)%Z; simpl; auto. rewrite X4. destruct (Rlt_bool_spec (euclid (p_pos p') (p_pos pk)) (q_reL q)).
        + unfold conduct. rewrite X4. reflexivity.
        + change (p_pos p) with (p_pos p'). rewrite w_out by auto. unfold Rdiv. ringR.
      - rewrite (listed_sum rs ps' i p' F L' Hb TG). symmetry. apply (sum_others_rel (fun p p' => p' = set_bc p (p_bc p'))); auto.
        + intros a a' ->. reflexivity.
        + intros j a a' Ha Ha' ->. unfold F. cbn [p_type set_bc p_pos]. unfold p'. cbn [p_pos set_bc]. destruct (Rlt_dec _ _); auto. destruct (p_type a =? DummyWall)%Z; auto.
          rewrite w_out by lra. unfold Rdiv. ringR. }
    assert (EQ' : q_compress q / (q_dt q * q_dt q) * nth i r 0 + sum_others ps i F = q_gamma q * (1 / (q_dt q * q_dt q)) * ((p_nd p - q_n0N q) / q_n0N q)).
    { rewrite <- SE. exact EQ. }
    change (sum_others ps i F + q_compress q / q_dt q ^ 2 * nth i r 0 = q_gamma q / q_dt q ^ 2 * ((p_nd p - q_n0N q) / q_n0N q)).
    replace (q_dt q ^ 2) with (q_dt q * q_dt q) by ring. rewrite Rplus_comm, EQ'. unfold Rdiv. ring.
Qed.

Lemma pressure_pressed (S : @solver Rnum) (m : @mps Rnum) ns c ns' c1 e0 ns2 : ready m -> exact_solver S -> sensible (m_calc m) (s_reMax (m_settings m)) ->
  used_searcher (s_reMax (m_settings m)) (s_domain (m_settings m)) (List.length c) ns -> indexed c -> (forall p, In p c -> 0 < p_dens p) ->
  setNeighbors ns c = Ok (ns', c1) -> apart c1 -> stepPressure S m ns c = Ok (ns2, e0) ->
  counted (s_reN (m_settings m)) c1 e0 /\ pressed (m_calc m) (s_reMax (m_settings m)) e0 /\
  listed (s_reMax (m_settings m)) e0 /\ indexed e0 /\ apart e0 /\ Forall2 same_move c1 e0.
Proof.
  intros Rd ES SN U I DN E A H. pose proof (ready_reMax m Rd) as RM. pose proof Rd as (_ & (PD & D & L0 & RN & RG & RL) & _).
  unfold stepPressure in H. rewrite E in H. cbn [bind] in H. binds H. binds H. destruct r0 as [c3 x]. binds H. inv H. rename r into c2.
  assert (LI := search_listed _ _ _ _ _ _ RM PD U I E). assert (I1 := search_indexed _ _ _ _ E I).
  assert (D1 : forall p, In p c1 -> 0 < p_dens p).
  { intros p Hp. apply In_nth_error in Hp. destruct Hp as [i Hp]. destruct (Forall2_nth_r _ _ _ _ _ (search_only _ _ _ _ _ _ U E) Hp) as (p0 & Hp0 & t & l & -> & _).
    simpl. eauto using nth_error_In. }
  destruct (density_counted _ _ _ _ LI A (proj2 RN) E0) as (CT & L2 & A2). assert (MV2 := calNumberDensity_move _ _ _ _ E0).
  assert (I2 : indexed c2). { intros k p Hp. destruct (Forall2_nth_r _ _ _ _ _ MV2 Hp) as (p0 & Hp0 & ((_ & _ & -> & _) & _)). auto. }
  assert (MV3 := calc_move _ _ _ _ _ E1). assert (MV4 := assignPressure_move _ _ _ E2).
  assert (I3 : indexed c3). { intros k p Hp. destruct (Forall2_nth_r _ _ _ _ _ MV3 Hp) as (p0 & Hp0 & ((_ & _ & -> & _) & _)). auto. }
  destruct (assign_nth _ _ _ I3 E2) as [LN4 N4].
  assert (MV : Forall2 same_move c1 e0) by (eapply Forall2_trans; [apply same_move_trans|exact MV2|]; eapply Forall2_trans; [apply same_move_trans|exact MV3|exact MV4]).
  assert (MW : Forall2 same_move c2 e0) by (eapply Forall2_trans; [apply same_move_trans|exact MV3|exact MV4]).
  assert (KEEP : listed (s_reMax (m_settings m)) e0 /\ indexed e0 /\ apart e0 /\ Forall2 same_move c1 e0).
  { split; [|split; [|split; auto]].
    - eapply listed_ext; [|exact LI]. clear - MV. induction MV as [|a b l l' ((S1 & S2 & _) & _) F IH]; simpl; auto. destruct S1 as (T1 & T2 & _). rewrite IH. congruence.
    - intros k p Hp. destruct (Forall2_nth_r _ _ _ _ _ MV Hp) as (p0 & Hp0 & ((_ & _ & -> & _) & _)). auto.
    - intros i j p q Hp Hq N Tp Tq. destruct (Forall2_nth_r _ _ _ _ _ MV Hp) as (p0 & Hp0 & (((X1 & X2 & _) & _) & _)).
      destruct (Forall2_nth_r _ _ _ _ _ MV Hq) as (q0 & Hq0 & (((Y1 & Y2 & _) & _) & _)). 
      assert (NE : p_pos p0 <> p_pos q0) by (eapply (A i j); eauto; congruence). congruence. }
  assert (CALC : Forall2 alike c2 e0 /\ pressed (m_calc m) (s_reMax (m_settings m)) e0).
  { destruct (m_calc m) as [det q|n0 cc] eqn:K; cbn [calc] in E1.
    - destruct SN as (Hr & Q1 & Q2 & Q3 & Q4).
      destruct (implicit_solved S det q _ c2 c3 x L2 I2 A2 Hr ES E1) as (M & LX & y & HY).
      assert (AL : Forall2 alike c2 e0).
      { apply Forall2_of_nth; [apply Forall2_length in MW; auto|]. intros i a b Ha Hb. destruct (Forall2_nth _ _ _ _ _ M Ha) as (a' & Ha' & Ea).
        destruct (N4 i a' Ha') as (v & _ & Hv). rewrite Hb in Hv. inv Hv. rewrite Ea. repeat split. }
      split; auto. cbn [pressed]. exists y. intros i p Hp.
      destruct (Forall2_nth_r _ _ _ _ _ AL Hp) as (p2 & Hp2 & AP). pose proof AP as (T & X & ND & DE).
      destruct (HY i p2 Hp2) as (Y1 & Y2 & Y3). destruct (Forall2_nth _ _ _ _ _ M Hp2) as (p3 & Hp3 & Ea). destruct (N4 i p3 Hp3) as (v & Hv & Hv'). rewrite Hp in Hv'. inv Hv'.
      split. { cbn [p_press set_press]. pose proof (eq_trans (eq_sym Hv) Y1) as Y4. now inv Y4. }
      assert (SF : surface det (s_reMax (m_settings m)) c2 i p2 <-> surface det (s_reMax (m_settings m)) e0 i (set_press p3 v)).
      { split; apply surface_ext; auto; [now apply alike_sym|]. destruct AP as (? & ? & ? & ?). repeat split; auto. }
      rewrite T, <- SF. split; [exact Y2|]. intros IN. rewrite ND. rewrite <- (Y3 IN). f_equal.
      apply (sum_others_rel alike); [now apply alike_sym|intros ? ? (? & _); auto|]. intros j a a' Ha Ha' (T1 & X1 & _). rewrite T1, X, X1, DE. reflexivity.
    - binds E1. inv E1. rewrite explicitCalc_map in E3 by auto. inv E3. 
      assert (AL : Forall2 alike c3 e0).
      { apply Forall2_of_nth; auto. intros i a b Ha Hb. destruct (N4 i a Ha) as (v & _ & Hv). rewrite Hb in Hv. inv Hv. repeat split. }
      split; auto. cbn [pressed]. intros p Hp. apply In_nth_error in Hp. destruct Hp as [i Hp].
      destruct (Forall2_nth_r _ _ _ _ _ AL Hp) as (p2 & Hp2 & _). destruct (N4 i p2 Hp2) as (v & Hv & Hv'). rewrite Hp in Hv'. inv Hv'.
      rewrite BaseFacts.nth_error_map, Hp2 in Hv. simpl in Hv. inv Hv. cbn [p_press set_press p_type p_dens p_nd]. apply explicit1_R; auto.
      left. destruct (Forall2_nth_r _ _ _ _ _ MV2 Hp2) as (p1 & Hp1 & ((_ & _ & _ & ->) & _)). eauto using nth_error_In. }
  destruct CALC as [AL PR]. split; auto. destruct CT as [CL CT]. split; [apply Forall2_length in AL; congruence|].
  intros i p Hp. destruct (CT i p Hp) as (p2 & Hp2 & C1 & C2 & C3 & C4 & C5 & C6).
  destruct (Forall2_nth _ _ _ _ _ AL Hp2) as (p4 & Hp4 & (T & X & ND & DE)). destruct (Forall2_nth _ _ _ _ _ MV Hp) as (p5 & Hp5 & (((Z1 & Z2 & Z3) & _) & _)).
  assert (p5 = p4) by congruence. subst p5. exists p4. split; auto. rewrite ND. repeat split; auto; congruence.
Qed.

(** ** the correction *)
Lemma correction (s : @settings Rnum) rv rs (ps ps1 ps2 : list partR) : listed rs ps -> indexed ps -> apart ps -> at_rest ps -> s_reG s <= rs ->
  0 < rv_n0 rv -> (forall p, In p ps -> 0 < p_dens p) ->
  setMinimumPressure (s_reG s) ps = Ok ps1 -> calPressureGradient s rv (s_reG s) ps1 = Ok ps2 ->
  corrected s (rv_n0 rv) ps (moveParticleUsingPressureGradient s ps2).
Proof.
  intros L I A AR Hr Hn Hd H1 H2.
  assert (SS : Forall2 same_state ps (moveParticleUsingPressureGradient s ps2)).
  { eapply Forall2_trans; [apply same_state_trans|eapply minp_state; eauto|]. eapply Forall2_trans; [apply same_state_trans|eapply gradient_state; eauto|apply correct_state]. }
  destruct (C20_lemma (s_reG s) rs ps L I Hr) as (q1 & E1 & L1 & K1). rewrite H1 in E1. inv E1. rename q1 into ps1.
  assert (M : Forall2 (fun p p' => p' = set_minp p (p_minp p')) ps ps1).
  { apply Forall2_of_nth; auto. intros i a b Ha Hb. destruct (K1 i a Ha) as (m & Hm & _). rewrite Hm in Hb. inv Hb. reflexivity. }
  assert (EXT : map (fun p => (p_type p, p_pos p, p_nbrs p)) ps = map (fun p => (p_type p, p_pos p, p_nbrs p)) ps1).
  { clear -M. induction M; simpl; auto. rewrite IHM, H. reflexivity. }
  assert (LI := listed_ext _ _ _ EXT L).
  assert (A1 : apart ps1).
  { intros i j p q Hp Hq N Tp Tq. destruct (Forall2_nth_r _ _ _ _ _ M Hp) as (p0 & Hp0 & Ep). destruct (Forall2_nth_r _ _ _ _ _ M Hq) as (q0 & Hq0 & Eq).
    rewrite Ep, Eq in *. simpl in *. eapply (A i j); eauto. }
  rewrite calPressureGradient_mapM in H2. apply mapM_ok in H2.
  split; [symmetry; eapply Forall2_length; eauto|].
  intros i p Hp. destruct (Forall2_nth _ _ _ _ _ SS Hp) as (p' & Hp' & (_ & T & ND & DE & PR & _)). exists p'. split; auto. split; auto. split; auto. split; auto. split; auto.
  destruct (K1 i p Hp) as (m & Hm & _ & HM). destruct (Forall2_nth _ _ _ _ _ H2 Hm) as (p2 & Hp2 & V).
  unfold moveParticleUsingPressureGradient in Hp'. rewrite BaseFacts.nth_error_map, Hp2 in Hp'. simpl in Hp'. inv Hp'.
  split; intros Tp.
  - unfold calPressureGradient1 in V. rewrite (proj2 (is_type_neq _ _)) in V by auto. inv V.
    unfold correct1. rewrite (proj2 (is_type_neq _ _)) by auto. auto.
  - assert (Tm : p_type (set_minp p m) = Fluid) by exact Tp.
    assert (TG : p_type p <> Ghost) by (rewrite Tp; discriminate). assert (TD : p_type p <> DummyWall) by (rewrite Tp; discriminate).
    assert (Dp := Hd p (nth_error_In _ _ Hp)). exists m. split; [exact (HM TG TD)|].
    rewrite (grad_value s rv (s_reG s) rs ps1 i _ LI A1 Hr Hm Tm) in V; [|simpl; lra|lra]. inv V.
    set (F := fun (_ : nat) (q : partR) => scaleR (push (IZR (s_dim s) / (rv_n0 rv * p_dens p)) (s_reG s) m (set_minp p m) q) (diffR (p_pos p) (p_pos q))).
    assert (SE : sumv ps1 i F = pressure_force (s_dim s) (rv_n0 rv) (s_reG s) m ps i p).
    { transitivity (sumv ps i (fun j q => scaleR (IZR (s_dim s) / (rv_n0 rv * p_dens p)) (if (p_type q =? DummyWall)%Z then zeroR else
        scaleR ((p_press q - m) * w_spec (s_reG s) (euclid (p_pos p) (p_pos q)) / euclid (p_pos p) (p_pos q) ^ 2) (diffR (p_pos p) (p_pos q))))).
      - symmetry. rewrite (sumv_ext ps i _ (fun j q => F j q)).
        + apply (sumv_rel (fun p p' => p' = set_minp p (p_minp p'))); auto; [intros a a' ->; reflexivity|]. intros j a a' _ _ ->. reflexivity.
        + intros j q Hq N Tq. unfold F, push, ghost_or_dummy, is_type. rewrite (proj2 (Z.eqb_neq _ _) Tq). simpl orb. cbn [p_dens p_pos p_minp set_minp].
          destruct (p_type q =? DummyWall)%Z; apply vec_ext; simpl; unfold Rdiv; ring.
      - unfold pressure_force, sumv, scaleR. cbn [vx vy vz].
        assert (SO : forall k f, sum_others ps i (fun j q => k * f j q) = k * sum_others ps i f).
        { intros k f. unfold sum_others. rewrite <- rsum_mul. apply rsum_ext. intros j _. destruct (nth_error ps j) as [q|]; [|ring]. destruct (_ || _); ring. }
        f_equal; apply SO. }
    rewrite SE. set (a := pressure_force _ _ _ _ _ _ _).
    unfold correct1. rewrite (proj2 (is_type_eq _ _)) by exact Tp. cbn [p_vel p_pos p_acc set_acc set_pos set_vel set_minp].
    rewrite (AR p (nth_error_In _ _ Hp)). split; apply vec_ext; simpl; ring.
Qed.

(** accelerations between the prediction and the gradient *)
Lemma move_rest (m : @mps Rnum) ns ps : stepMove m = Ok (ns, ps) -> at_rest ps.
Proof.
  unfold stepMove. intros H. binds H. destruct r as [n1 p1]. binds H. inv H. intros p Hp. unfold moveParticle in Hp. apply in_map_iff in Hp.
  destruct Hp as (q & <- & _). unfold moveParticle1. reflexivity.
Qed.
Lemma search_rest re d ns (ps : list partR) ns' ps' : used_searcher re d (List.length ps) ns -> setNeighbors ns ps = Ok (ns', ps') -> at_rest ps -> at_rest ps'.
Proof.
  intros U E AR p Hp. apply In_nth_error in Hp. destruct Hp as [i Hp].
  destruct (Forall2_nth_r _ _ _ _ _ (search_only _ _ _ _ _ _ U E) Hp) as (p0 & Hp0 & t & l & -> & _). simpl. eauto using nth_error_In.
Qed.
Lemma collision_rest (s : @settings Rnum) (ps ps' : list partR) : collision s ps = Ok ps' -> at_rest ps -> at_rest ps'.
Proof.
  intros H AR. eapply (collision_ind s (fun u => at_rest u) ps ps' H AR). intros u u' i nb p q HU HC ST Hp Tp _ _.
  destruct (collide_cases s i nb u u' HC) as [->|(a & b & Ha & Hb & N & _ & ->)]; auto.
  { intros p' Hp'. destruct (Forall2_nth _ _ _ _ _ ST Hp) as (p2 & Hp2 & (T & _)). congruence. }
  intros x Hx. apply In_nth_error in Hx. destruct Hx as [k Hx].
  destruct (Nat.eq_dec k (Z.to_nat (nb_id nb))) as [->|n1].
  - rewrite nth_upd_same in Hx by (rewrite length_upd; apply nth_error_Some; congruence). inv Hx. unfold hit_j. simpl. eauto using nth_error_In.
  - rewrite nth_upd_other in Hx by auto. destruct (Nat.eq_dec k i) as [->|n2].
    + rewrite nth_upd_same in Hx by (apply nth_error_Some; congruence). inv Hx. unfold hit_i. simpl. eauto using nth_error_In.
    + rewrite nth_upd_other in Hx by auto. eauto using nth_error_In.
Qed.

Lemma dens_kept (ps ps' : list partR) : Forall2 same_id ps ps' -> (forall p, In p ps -> 0 < p_dens p) -> forall p, In p ps' -> 0 < p_dens p.
Proof.
  intros F H p Hp. apply In_nth_error in Hp. destruct Hp as [i Hp]. destruct (Forall2_nth_r _ _ _ _ _ F Hp) as (q & Hq & (_ & -> & _)). eauto using nth_error_In.
Qed.
Lemma search_same_id ns (ps : list partR) ns' ps' : setNeighbors ns ps = Ok (ns', ps') -> Forall2 same_id ps ps'.
Proof. intros H. eapply Forall2_impl; [|eapply setNeighbors_evolves; eauto]. intros ? ? X; apply X. Qed.

Lemma C52_lemma (s : @settings Rnum) rv rs (ps : list partR) : listed rs ps -> indexed ps -> apart ps -> at_rest ps -> s_reG s <= rs ->
  (s_dim s = 2 \/ s_dim s = 3)%Z -> 0 < rv_n0 rv -> (forall p, In p ps -> 0 < p_dens p) ->
  exists ps1 ps2, setMinimumPressure (s_reG s) ps = Ok ps1 /\ calPressureGradient s rv (s_reG s) ps1 = Ok ps2 /\
    corrected s (rv_n0 rv) ps (moveParticleUsingPressureGradient s ps2) /\ at_rest (moveParticleUsingPressureGradient s ps2).
Proof.
  intros L I A AR Hr Dm Hn Hd. destruct (C21_lemma s rv (s_reG s) rs ps L I A Hr Dm Hn) as (ps1 & ps2 & E1 & E2 & _); [intros p Hp _; auto|].
  exists ps1, ps2. split; auto. split; auto. split; [eapply correction; eauto|apply correct_at_rest].
Qed.

(** ** the step *)
Lemma step_stages (S : @solver Rnum) (m m' : @mps Rnum) : ready m -> exact_solver S -> sensible (m_calc m) (s_reMax (m_settings m)) ->
  (forall p, In p (m_ps m) -> 0 < p_dens p) -> stepForward S m = Ok m' ->
  let s := m_settings m in
  exists a b b1 c c1 e,
    (exists n1 n2 n3 n4, stepMove m = Ok (n1, b) /\ setNeighbors n1 b = Ok (n2, b1) /\ stepCollide m n1 b = Ok (n3, c) /\ setNeighbors n3 c = Ok (n4, c1) /\ Forall2 same_id c1 (m_ps m')) /\
    swept (s_domain s) (m_ps m) a /\
    (apart a -> predicted s (m_gravity m) (rv_n0 (m_rvL m)) (rv_lambda (m_rvL m)) a b) /\
    swept (s_domain s) b b1 /\ collided s b1 c /\
    swept (s_domain s) c c1 /\
    (apart c1 -> counted (s_reN s) c1 e /\ pressed (m_calc m) (s_reMax s) e /\ corrected s (rv_n0 (m_rvG m)) e (m_ps m')).
Proof.
  intros Rd ES SN DN H s. pose proof (ready_reMax m Rd) as RM. pose proof Rd as ((I & AR & U) & (PD & D & L0 & RN & RG & RL) & RV1 & RV2 & RV3).
  unfold stepForward in H. binds H. destruct r as [n1 b]. binds H. destruct r as [n2 c]. binds H. destruct r as [n3 e]. binds H.
  destruct (calCourant _ _) as [cr er]. inv H. cbn [m_ps].
  (* prediction *)
  pose proof E as EM. unfold stepMove in EM. binds EM. destruct r0 as [na a]. clear EM. rename E3 into EA.
  assert (U1 := move_searcher _ _ m _ _ U E). assert (I1 := move_indexed _ _ _ I E). assert (R1 := move_rest _ _ _ E).
  assert (D1 : forall p, In p b -> 0 < p_dens p).
  { clear - E DN. unfold stepMove in E. binds E. destruct r as [na a]. binds E. inv E. eapply dens_kept; [|exact DN].
    eapply Forall2_trans; [apply same_id_trans|eapply search_same_id; eauto|].
    eapply Forall2_trans; [apply same_id_trans|eapply Forall2_impl; [|apply (calGravity_evolves (m_gravity m))]; intros ? ? X; apply X|].
    eapply Forall2_trans; [apply same_id_trans|eapply Forall2_impl; [|eapply calViscosity_evolves; eauto]; intros ? ? X; apply X|].
    eapply Forall2_impl; [|apply moveParticle_evolves]; intros ? ? X; apply X. }
  (* collisions *)
  assert (U2 := collide_searcher _ _ m _ _ _ _ U1 E0). assert (I2 := collide_indexed _ _ _ _ _ I1 E0).
  pose proof E0 as EE. unfold stepCollide in E0. binds E0. destruct r0 as [nb b1]. binds E0. inv E0. rename E3 into EB. rename E4 into EC.
  assert (DB := dens_kept _ _ (search_same_id _ _ _ _ EB) D1).
  assert (DC := dens_kept _ _ (collision_same_id _ _ _ EC) DB).
  assert (RC := collision_rest _ _ _ EC (search_rest _ _ _ _ _ _ U1 EB R1)).
  assert (LB := search_listed _ _ _ _ _ _ RM PD U1 I1 EB).
  (* pressures *)
  pose proof E1 as EP. unfold stepPressure in EP. binds EP. destruct r0 as [nc c1]. clear EP. rename E0 into ED.
  assert (RC1 := search_rest _ _ _ _ _ _ U2 ED RC). assert (DC1 := dens_kept _ _ (search_same_id _ _ _ _ ED) DC).
  assert (TL : Forall2 same_id c1 r).
  { assert (L : forall l l' : list partR, Forall2 evolves l l' -> Forall2 same_id l l') by (intros l l' X; eapply Forall2_impl; [|exact X]; intros ? ? Y; apply Y).
    assert (Tr : forall l1 l2 l3 : list partR, Forall2 same_id l1 l2 -> Forall2 same_id l2 l3 -> Forall2 same_id l1 l3) by (intros; eapply Forall2_trans; eauto; apply same_id_trans).
    clear - L Tr E1 E2 ED. apply Tr with e.
    - unfold stepPressure in E1. rewrite ED in E1. cbn [bind] in E1. binds E1. binds E1. destruct r1 as [ps5 x]. binds E1. inv E1.
      apply calNumberDensity_evolves, L in E. apply calc_evolves, L in E0. apply assignPressure_evolves, L in E3. eapply Tr; [exact E|]. eapply Tr; eauto.
    - unfold stepCorrect in E2. binds E2. binds E2. apply minp_evolves, L in E. apply calPressureGradient_evolves, L in E0.
      eapply Tr; [exact E|]. eapply Tr; [exact E0|]. eapply Tr; [apply L, (correct_evolves (m_settings m))|].
      destruct (m_calc m); [inv E2; apply Forall2_same; apply same_id_refl|]. binds E2. apply assignPressure_evolves, L in E2. exact E2. }
  exists a, b, b1, c, c1, e. split; [eauto 12|].
  split; [eapply search_swept; eauto|]. split; [intros A; eapply move_predicted; eauto|]. split; [eapply search_swept; eauto|].
  split. { apply collision_collided; auto; [eapply search_indexed; eauto|]. intros p Hp _. auto. }
  split; [eapply search_swept; eauto|]. intros A.
  destruct (pressure_pressed S m _ c _ c1 e _ Rd ES SN U2 I2 DC ED A E1) as (P1 & P2 & P3 & P4 & P5 & P6). split; auto. split; auto.
  assert (RE : at_rest e). { intros p Hp. apply In_nth_error in Hp. destruct Hp as [i Hp]. destruct (Forall2_nth_r _ _ _ _ _ P6 Hp) as (q & Hq & (_ & ->)). eauto using nth_error_In. }
  assert (DE : forall p, In p e -> 0 < p_dens p).
  { intros p Hp. apply In_nth_error in Hp. destruct Hp as [i Hp]. destruct (Forall2_nth_r _ _ _ _ _ P6 Hp) as (q & Hq & ((_ & _ & _ & ->) & _)). eauto using nth_error_In. }
  assert (N0 : 0 < rv_n0 (m_rvG m)).
  { destruct (C09_lemma (s_asserts (m_settings m)) _ _ _ D L0 (proj1 RG)) as (rv & EV & Q & _). rewrite RV2 in EV. inv EV. exact Q. }
  assert (SC : exists q1 q2, setMinimumPressure (s_reG s) e = Ok q1 /\ calPressureGradient s (m_rvG m) (s_reG s) q1 = Ok q2 /\ r = moveParticleUsingPressureGradient s q2).
  { destruct (m_calc m) as [det q|n0 cc] eqn:K.
    - unfold stepCorrect in E2. binds E2. binds E2. rewrite K in E2. inv E2. eauto.
    - destruct (C25_lemma m n0 cc e r K P4) as (q1 & q2 & X1 & X2 & X3 & _); auto; [|eauto].
      intros p Hp. rewrite explicit1_R; [|exact SN|left; auto]. apply P2; auto. }
  destruct SC as (q1 & q2 & X1 & X2 & ->). eapply correction; eauto. apply RG.
Qed.
Lemma C53_lemma (S : @solver Rnum) (m m' : @mps Rnum) : ready m -> exact_solver S -> sensible (m_calc m) (s_reMax (m_settings m)) ->
  (forall p, In p (m_ps m) -> 0 < p_dens p) -> stepForward S m = Ok m' ->
  let s := m_settings m in
  exists a b b1 c c1 e,
    swept (s_domain s) (m_ps m) a /\
    (apart a -> predicted s (m_gravity m) (rv_n0 (m_rvL m)) (rv_lambda (m_rvL m)) a b) /\
    swept (s_domain s) b b1 /\ collided s b1 c /\
    swept (s_domain s) c c1 /\
    (apart c1 -> counted (s_reN s) c1 e /\ pressed (m_calc m) (s_reMax s) e /\ corrected s (rv_n0 (m_rvG m)) e (m_ps m')).
Proof.
  intros Rd ES SN DN H. destruct (step_stages S m m' Rd ES SN DN H) as (a & b & b1 & c & c1 & e & _ & K). exists a, b, b1, c, c1, e. exact K.
Qed.
