(** * Minimum pressure, pressure gradient and Courant number (C20 - C22) *)
From Coq Require Import Reals Lra PeanoNat.
From Verif Require Export MotionR.
Open Scope R_scope.
#[local] Remove Hints F64 : typeclass_instances.

(** a loop that always continues *)
Lemma foldM_run {A St} (Inv : St -> Prop) (Q : A -> St -> Prop) (f : A -> St -> outcome St) xs s :
  Inv s ->
  (forall x u, In x xs -> Inv u -> exists u', f x u = Ok u' /\ Inv u' /\ Q x u' /\ forall y, Q y u -> Q y u') ->
  exists s', foldM f xs s = Ok s' /\ Inv s' /\ (forall x, In x xs -> Q x s') /\ (forall y, Q y s -> Q y s').
Proof.
  revert s. induction xs as [|x xs IH]; intros s HI HS; simpl.
  - exists s. repeat split; auto. intros ? [].
  - destruct (HS x s (or_introl eq_refl) HI) as (u & E & Iu & Qu & Su). rewrite E. simpl.
    destruct (IH u Iu) as (s' & E' & I' & Q' & S'). { intros. apply HS; simpl; auto. }
    exists s'. repeat split; auto. intros y [<-|Hy]; auto.
Qed.

Lemma nmin_R a b : @nmin Rnum a b = Rmin a b.
Proof. unfold nmin. simpl. unfold Rmin. destruct (Rlt_bool_spec b a), (Rle_dec a b); lra. Qed.

Lemma god_false (p : partR) : ghost_or_dummy p = false <-> p_type p <> Ghost /\ p_type p <> DummyWall.
Proof. unfold ghost_or_dummy, is_type. rewrite orb_false_iff, !Z.eqb_neq. tauto. Qed.
Lemma god_true (p : partR) : ghost_or_dummy p = true <-> p_type p = Ghost \/ p_type p = DummyWall.
Proof. unfold ghost_or_dummy, is_type. rewrite orb_true_iff, !Z.eqb_eq. tauto. Qed.

Section MinP.
Variables (re rs : R) (ps : list partR).
Hypothesis L : listed rs ps.
Hypothesis ID : indexed ps.
Hypothesis Hr : re <= rs.

Definition min_inv (u : list partR) : Prop :=
  List.length u = List.length ps /\
  forall k p, nth_error ps k = Some p -> exists m : R, nth_error u k = Some (set_minp p m) /\
    (ghost_or_dummy p = true -> m = p_press p) /\ m <= p_press p /\
    (m = p_press p \/ exists j q, interacts re ps k p j q /\ m = p_press q).
Definition below (u : list partR) (a b : nat) : Prop :=
  forall x q, nth_error u a = Some x -> nth_error ps b = Some q -> p_minp x <= p_press q.
Definition pair_done (i : nat) (nb : @neighbor Rnum) (u : list partR) : Prop :=
  forall q, nth_error ps (Z.to_nat (nb_id nb)) = Some q -> ghost_or_dummy q = false -> (nb_id nb < Z.of_nat i)%Z -> nb_dist nb < re ->
    below u i (Z.to_nat (nb_id nb)) /\ below u (Z.to_nat (nb_id nb)) i.
Definition down (u u' : list partR) : Prop :=
  forall k x', nth_error u' k = Some x' -> exists x, nth_error u k = Some x /\ p_minp x' <= p_minp x.

Lemma down_refl u : down u u.
Proof. intros k x H. exists x. split; auto. lra. Qed.
Lemma down_trans u v w : down u v -> down v w -> down u w.
Proof. intros A B k x H. destruct (B k x H) as (y & H1 & H2). destruct (A k y H1) as (z & H3 & H4). exists z. split; auto. lra. Qed.
Lemma down_below u u' a b : down u u' -> below u a b -> below u' a b.
Proof. intros D B x q Hx Hq. destruct (D a x Hx) as (y & Hy & Hl). specialize (B y q Hy Hq). lra. Qed.
Lemma down_done i nb u u' : down u u' -> pair_done i nb u -> pair_done i nb u'.
Proof. intros D P q H1 H2 H3 H4. destruct (P q H1 H2 H3 H4). split; eapply down_below; eauto. Qed.

Lemma pair_run i p nb u : nth_error ps i = Some p -> ghost_or_dummy p = false -> In nb (p_nbrs p) -> min_inv u ->
  exists u', @minp_pair Rnum re i nb u = Ok u' /\ min_inv u' /\ pair_done i nb u' /\ down u u'.
Proof.
  intros Hp Gp Hin HI. pose proof HI as (Ln & HU). pose proof (proj1 (god_false p) Gp) as [TG TD].
  destruct (listed_get rs ps i p nb L Hp TG Hin) as (j & q & E1 & _ & Hq & N & Tq & E4 & E5).
  destruct (HU i p Hp) as (mi & Ui & _ & Mi & Wi). destruct (HU j q Hq) as (mj & Uj & Gj & Mj & Wj).
  unfold minp_pair. rewrite (vget_nat _ _ _ Ui). cbn [bind]. rewrite E1, (vget_nat _ _ _ Uj). cbn [bind].
  change (ghost_or_dummy (set_minp q mj)) with (ghost_or_dummy q).
  destruct (ghost_or_dummy q) eqn:Gq.
  { exists u. split; auto. split; auto. split; [|apply down_refl]. intros q' H' G'. rewrite E1, Nat2Z.id in H'. congruence. }
  change (p_id (set_minp p mi)) with (p_id p). change (p_id (set_minp q mj)) with (p_id q). rewrite (ID _ _ Hp), (ID _ _ Hq).
  destruct (Z.ltb_spec (Z.of_nat i) (Z.of_nat j)) as [Lij|Lij].
  { exists u. split; auto. split; auto. split; [|apply down_refl]. intros q' H' G' Hl. rewrite E1 in Hl. lia. }
  simpl nlt. destruct (Rlt_bool_spec (nb_dist nb) re) as [Hd|Hd].
  2: { exists u. split; auto. split; auto. split; [|apply down_refl]. intros q' H' G' Hl Hdd. lra. }
  rewrite (vmod_nat _ _ _ _ Ui). cbn [bind].
  assert (Uj' : nth_error (upd u i (set_minp (set_minp p mi) (nmin mi (p_press q)))) j = Some (set_minp q mj)) by (rewrite nth_upd_other; auto).
  cbn [p_minp set_minp p_press]. rewrite (vmod_nat _ _ _ _ Uj'). cbn [p_minp set_minp p_press]. rewrite !nmin_R.
  set (u' := upd (upd u i _) j _). exists u'. split; auto.
  assert (Li : (i < List.length u)%nat) by (apply nth_error_Some; congruence).
  assert (Lj : (j < List.length (upd u i (set_minp p (Rmin mi (p_press q)))))%nat) by (apply nth_error_Some; rewrite nth_upd_other by auto; congruence).
  assert (Ri : nth_error u' i = Some (set_minp p (Rmin mi (p_press q)))).
  { unfold u'. rewrite nth_upd_other by auto. now rewrite nth_upd_same. }
  assert (Rj : nth_error u' j = Some (set_minp q (Rmin mj (p_press p)))).
  { unfold u'. now rewrite nth_upd_same. }
  assert (Ro : forall k, k <> i -> k <> j -> nth_error u' k = nth_error u k).
  { intros k H1 H2. unfold u'. now rewrite !nth_upd_other by auto. }
  apply god_false in Gq as [_ Dq].
  assert (Iij : interacts re ps i p j q) by (unfold interacts; rewrite <- E4; auto).
  assert (Iji : interacts re ps j q i p) by (unfold interacts; rewrite euclid_sym, <- E4; auto).
  split; [|split].
  - split. { unfold u'. now rewrite !length_upd. }
    intros k r Hk. destruct (Nat.eq_dec k i) as [->|ni]; [|destruct (Nat.eq_dec k j) as [->|nj]].
    + assert (r = p) by congruence. subst r. exists (Rmin mi (p_press q)). split; auto. split; [congruence|].
      split; [apply Rle_trans with mi; auto; apply Rmin_l|].
      unfold Rmin. destruct (Rle_dec mi (p_press q)); auto. right. exists j, q. auto.
    + assert (r = q) by congruence. subst r. exists (Rmin mj (p_press p)). split; auto.
      split. { intros G. apply god_true in G. intuition congruence. }
      split; [apply Rle_trans with mj; auto; apply Rmin_l|].
      unfold Rmin. destruct (Rle_dec mj (p_press p)); auto. right. exists i, p. auto.
    + rewrite Ro by auto. apply HU; auto.
  - intros q' H' _ _ _. rewrite E1, Nat2Z.id in *. rewrite Hq in H'. inv H'. split; intros x y Hx Hy.
    + rewrite Ri in Hx. inv Hx. assert (y = q') by congruence. subst y. simpl. apply Rmin_r.
    + rewrite Rj in Hx. inv Hx. assert (y = p) by congruence. subst y. simpl. apply Rmin_r.
  - intros k x' Hx'. destruct (Nat.eq_dec k i) as [->|ni]; [|destruct (Nat.eq_dec k j) as [->|nj]].
    + rewrite Ri in Hx'. inv Hx'. eexists. split; eauto. simpl. apply Rmin_l.
    + rewrite Rj in Hx'. inv Hx'. eexists. split; eauto. simpl. apply Rmin_l.
    + rewrite Ro in Hx' by auto. exists x'. split; auto. lra.
Qed.

Lemma row_run i u : (i < List.length ps)%nat -> min_inv u ->
  exists u', @minp1 Rnum re i u = Ok u' /\ min_inv u' /\ down u u' /\
    forall p nb, nth_error ps i = Some p -> ghost_or_dummy p = false -> In nb (p_nbrs p) -> pair_done i nb u'.
Proof.
  intros Hi HI. destruct (nth_error_ext_length ps i Hi) as [p Hp]. pose proof HI as (Ln & HU). destruct (HU i p Hp) as (mi & Ui & _).
  unfold minp1. rewrite (vget_nat _ _ _ Ui). cbn [bind]. change (ghost_or_dummy (set_minp p mi)) with (ghost_or_dummy p).
  destruct (ghost_or_dummy p) eqn:G.
  { exists u. split; auto. split; auto. split; [apply down_refl|]. intros p' nb H' G'. congruence. }
  change (p_nbrs (set_minp p mi)) with (p_nbrs p).
  destruct (foldM_run (fun v => min_inv v /\ down u v) (fun nb v => pair_done i nb v) (@minp_pair Rnum re i) (p_nbrs p) u) as (u' & E & (I' & D') & Q & _).
  - split; auto. apply down_refl.
  - intros nb v Hin [Iv Dv]. destruct (pair_run i p nb v Hp G Hin Iv) as (v' & E & I' & P & D). exists v'. split; auto.
    split; [split; auto; eapply down_trans; eauto|]. split; auto. intros y. now apply down_done.
  - exists u'. split; auto. split; auto. split; auto. intros p' nb H' _ Hin. assert (p' = p) by congruence. subst. auto.
Qed.

Lemma C20_lemma : exists ps', @setMinimumPressure Rnum re ps = Ok ps' /\ List.length ps' = List.length ps /\
  forall i p, nth_error ps i = Some p -> exists m : R, nth_error ps' i = Some (set_minp p m) /\
    (p_type p = Ghost \/ p_type p = DummyWall -> m = p_press p) /\
    (p_type p <> Ghost -> p_type p <> DummyWall ->
       m <= p_press p /\ (forall j q, interacts re ps i p j q -> m <= p_press q) /\
       (m = p_press p \/ exists j q, interacts re ps i p j q /\ m = p_press q)).
Proof.
  unfold setMinimumPressure. set (u0 := map _ ps). 
  assert (I0 : min_inv u0).
  { split; [apply map_length|]. intros k p Hp. exists (p_press p). unfold u0. rewrite BaseFacts.nth_error_map, Hp. repeat split; auto; lra. }
  assert (LN : List.length u0 = List.length ps) by apply map_length. rewrite LN.
  destruct (foldM_run min_inv (fun i v => forall p nb, nth_error ps i = Some p -> ghost_or_dummy p = false -> In nb (p_nbrs p) -> pair_done i nb v)
              (@minp1 Rnum re) (seq 0 (List.length ps)) u0 I0) as (ps' & E & (Ln & HU) & Q & _).
  { intros i v Hi Iv. apply in_seq in Hi. destruct (row_run i v) as (v' & Ev & I' & D & P); auto; [lia|].
    exists v'. split; auto. split; auto. split; auto. intros y H p nb Hp G Hin. eapply down_done; eauto. }
  exists ps'. split; auto. split; auto. intros i p Hp. destruct (HU i p Hp) as (m & Hm & G & M1 & M2). exists m. split; auto.
  split. { intros T. apply G. now apply god_true. }
  intros TG TD. split; auto. split; auto. intros j q (Hq & N & Tq & Dq & Hd).
  assert (BS : forall a b pa pb, nth_error ps a = Some pa -> nth_error ps b = Some pb -> (b < a)%nat -> ghost_or_dummy pa = false -> ghost_or_dummy pb = false ->
            euclid (p_pos pa) (p_pos pb) < re -> below ps' a b /\ below ps' b a).
  { intros a b pa pb Ha Hb Hlt Ga Gb Hab. apply god_false in Ga as Ga'. destruct Ga' as [Ga1 Ga2]. destruct (L a pa Ha Ga1) as [_ L2].
    set (nb := @mkNb Rnum (Z.of_nat b) (euclid (p_pos pa) (p_pos pb))).
    assert (Hin : In nb (p_nbrs pa)).
    { apply L2. exists b, pb. split; auto. split; [lia|]. apply god_false in Gb. split; [tauto|]. split; [lra|reflexivity]. }
    assert (Ia : In a (seq 0 (List.length ps))) by (apply in_seq; split; [lia|apply nth_error_Some; congruence]).
    assert (PD := Q a Ia pa nb Ha Ga Hin). specialize (PD pb). unfold nb in PD. simpl in PD. rewrite Nat2Z.id in PD. apply PD; auto. lia. }
  assert (Gp : ghost_or_dummy p = false) by now apply god_false. assert (Gq : ghost_or_dummy q = false) by now apply god_false.
  destruct (lt_dec j i) as [l|l].
  - destruct (BS i j p q) as [B _]; auto. apply (B _ q Hm Hq).
  - destruct (BS j i q p) as [_ B]; auto; [lia|rewrite euclid_sym; auto|]. apply (B _ q Hm Hq).
Qed.
End MinP.

(** ** C21: the pressure gradient *)
Lemma sqnorm_euclid (x y : vecR) : @vsqnorm Rnum (vsub y x) = euclid x y ^ 2.
Proof.
  unfold euclid. rewrite pow2_sqrt.
  - unfold vsqnorm, vdot, vsub. simpl. ring.
  - assert (A := pow2_ge_0 (vx x - vx y)). assert (B := pow2_ge_0 (vy x - vy y)). assert (C := pow2_ge_0 (vz x - vz y)). lra.
Qed.

(** strength of the push of particle q on particle p *)
Definition push (k re m : R) (p q : partR) : R :=
  if ghost_or_dummy q then 0 else k * (p_press q - m) * w_spec re (euclid (p_pos p) (p_pos q)) / euclid (p_pos p) (p_pos q) ^ 2.

Lemma grad_value (s : @settings Rnum) rv re rs ps i p : listed rs ps -> apart ps -> re <= rs -> nth_error ps i = Some p -> p_type p = Fluid ->
  p_dens p <> 0 -> rv_n0 rv <> 0 ->
  @calPressureGradient1 Rnum s rv re ps p = Ok (set_acc p (addR (p_acc p)
    (sumv ps i (fun _ q => scaleR (push (IZR (s_dim s) / (rv_n0 rv * p_dens p)) re (p_minp p) p q) (diffR (p_pos p) (p_pos q)))))).
Proof.
  intros L A Hr Hp Tp Hd Hn. assert (TG : p_type p <> Ghost) by (rewrite Tp; discriminate).
  unfold calPressureGradient1. rewrite (proj2 (is_type_eq _ _) Tp). simpl negb. cbv iota.
  set (F := fun (_ : nat) (q : partR) => scaleR (- push 1 re (p_minp p) p q) (diffR (p_pos p) (p_pos q))).
  rewrite (foldM_vadd _ (fun nb => match nth_error ps (Z.to_nat (nb_id nb)) with
      | Some q => F (Z.to_nat (nb_id nb)) q | None => zeroR end)).
  - rewrite (listed_vsum rs ps i p F L Hp TG).
    rewrite (sumv_ext ps i _ F).
    + simpl bind. f_equal. f_equal.
      assert (K : forall c : vecR -> R,
        sum_others ps i (fun _ q => push (IZR (s_dim s) / (rv_n0 rv * p_dens p)) re (p_minp p) p q * c (diffR (p_pos p) (p_pos q))) =
        - (sum_others ps i (fun _ q => - push 1 re (p_minp p) p q * c (diffR (p_pos p) (p_pos q))) * (IZR (s_dim s) / rv_n0 rv) / p_dens p)).
      { intros c. transitivity (- (IZR (s_dim s) / rv_n0 rv / p_dens p) * sum_others ps i (fun _ q => - push 1 re (p_minp p) p q * c (diffR (p_pos p) (p_pos q)))).
        - unfold sum_others. rewrite <- rsum_mul. apply rsum_ext. intros j _. destruct (nth_error ps j) as [q|]; [|ring].
          destruct (_ || _); [ring|]. unfold push. destruct (ghost_or_dummy q); [ring|]. unfold Rdiv. rewrite Rinv_mult. ring.
        - field. split; auto. }
      assert (KX := K vx). assert (KY := K vy). assert (KZ := K vz). apply vec_ext; simpl in *; [rewrite KX|rewrite KY|rewrite KZ]; unfold grad_coeff; simpl; unfold Rdiv; ringR.
    + intros j q Hq N Tq. destruct (Rlt_dec _ _); auto. unfold F, push. rewrite w_out by lra. destruct (ghost_or_dummy q); apply vec_ext; simpl; unfold Rdiv; ringR.
  - intros nb acc Hin. destruct (listed_get rs ps i p nb L Hp TG Hin) as (j & q & E1 & E2 & E3 & N & Tq & E4 & E5).
    unfold grad_term. rewrite E2. cbn [bind]. rewrite E1, Nat2Z.id, E3.
    assert (P : 0 < nb_dist nb) by exact (listed_dist_pos rs ps i p nb L A Hp TG Hin).
    unfold F, push. destruct (ghost_or_dummy q); [f_equal; apply vec_ext; simpl; ringR|].
    simpl nlt. destruct (Rlt_bool_spec (nb_dist nb) re) as [Hl|Hl].
    + rewrite weight_R by auto. cbn [bind]. f_equal. rewrite E4, sqnorm_euclid. rewrite E4 in P.
      apply vec_ext; simpl; unfold Rdiv; ringR.
    + f_equal. rewrite w_out by (rewrite <- E4; auto). apply vec_ext; simpl; unfold Rdiv; ringR.
Qed.

Lemma C21_lemma (s : @settings Rnum) rv re rs ps :
  listed rs ps -> indexed ps -> apart ps -> re <= rs -> (s_dim s = 2 \/ s_dim s = 3)%Z -> 0 < rv_n0 rv -> dense ps ->
  exists ps1 ps2, setMinimumPressure re ps = Ok ps1 /\ calPressureGradient s rv re ps1 = Ok ps2 /\ List.length ps2 = List.length ps /\
    forall i p, nth_error ps i = Some p -> exists p2, nth_error ps2 i = Some p2 /\
      (p_type p <> Fluid -> p_acc p2 = p_acc p) /\
      (p_type p = Fluid -> exists k : nat -> R,
         p_acc p2 = addR (p_acc p) (sumv ps i (fun j q => scaleR (k j) (diffR (p_pos p) (p_pos q)))) /\
         (forall j, 0 <= k j) /\
         (forall j q, nth_error ps j = Some q -> ~ interacts re ps i p j q -> k j = 0) /\
         ((forall j q, interacts re ps i p j q -> p_press q = p_press p) -> p_acc p2 = p_acc p)).
Proof.
  intros L I A Hr Dm Hn Hd. destruct (C20_lemma re rs ps L I Hr) as (ps1 & E1 & L1 & H1). exists ps1.
  assert (M : Forall2 (fun p p' => p' = set_minp p (p_minp p')) ps ps1).
  { apply Forall2_of_nth; auto. intros i a b Ha Hb. destruct (H1 i a Ha) as (m & Hm & _). rewrite Hm in Hb. inv Hb. reflexivity. }
  assert (EXT : map (fun p => (p_type p, p_pos p, p_nbrs p)) ps = map (fun p => (p_type p, p_pos p, p_nbrs p)) ps1).
  { clear -M. induction M; simpl; auto. rewrite IHM, H. reflexivity. }
  assert (LI := listed_ext _ _ _ EXT L).
  assert (A1 : apart ps1).
  { intros i j p q Hp Hq N Tp Tq. destruct (Forall2_nth_r _ _ _ _ _ M Hp) as (p0 & Hp0 & Ep). destruct (Forall2_nth_r _ _ _ _ _ M Hq) as (q0 & Hq0 & Eq).
    rewrite Ep, Eq in *. simpl in *. eapply (A i j); eauto. }
  assert (DN : forall p, In p ps1 -> p_type p = Fluid -> p_dens p <> 0).
  { intros p Hp T. apply In_nth_error in Hp. destruct Hp as [i Hp]. destruct (Forall2_nth_r _ _ _ _ _ M Hp) as (p0 & Hp0 & Ep).
    rewrite Ep in *. simpl in *. specialize (Hd p0 (nth_error_In _ _ Hp0) T). lra. }
  assert (T : exists ps2, calPressureGradient s rv re ps1 = Ok ps2).
  { rewrite calPressureGradient_mapM. apply mapM_total. intros p Hp. specialize (DN p Hp). apply In_nth_error in Hp. destruct Hp as [i Hp].
    destruct (Z.eq_dec (p_type p) Fluid) as [e|n].
    - eexists. eapply grad_value; eauto. lra.
    - exists p. unfold calPressureGradient1. now rewrite (proj2 (is_type_neq _ _) n). }
  destruct T as [ps2 E2]. exists ps2. split; auto. split; auto. rewrite calPressureGradient_mapM in E2. apply mapM_ok in E2.
  split; [apply Forall2_length in E2; lia|].
  intros i p Hp. destruct (H1 i p Hp) as (m & Hm & _ & HM). destruct (Forall2_nth _ _ _ _ _ E2 Hm) as (p2 & Hp2 & V). exists p2. split; auto.
  split; intros Tp.
  - unfold calPressureGradient1 in V. rewrite (proj2 (is_type_neq _ _)) in V by auto. inv V. reflexivity.
  - assert (Tm : p_type (set_minp p m) = Fluid) by exact Tp.
    assert (TG : p_type p <> Ghost) by (rewrite Tp; discriminate). assert (TD : p_type p <> DummyWall) by (rewrite Tp; discriminate).
    destruct (HM TG TD) as (M1 & M2 & M3).
    assert (Dp := Hd p (nth_error_In _ _ Hp) Tp).
    rewrite (grad_value s rv re rs ps1 i _ LI A1 Hr Hm Tm) in V; [|simpl; lra|lra]. inv V. cbn [p_acc set_acc set_minp p_minp p_dens p_pos].
    set (k0 := IZR (s_dim s) / (rv_n0 rv * p_dens p)).
    assert (K0 : 0 <= k0).
    { unfold k0. apply Rlt_le, Rdiv_lt_0_compat; [|now apply Rmult_lt_0_compat]. apply IZR_lt. destruct Dm; lia. }
    set (k := fun j => match nth_error ps j with
                       | Some q => if Nat.eqb j i || (p_type q =? Ghost)%Z then 0 else if Rlt_dec (euclid (p_pos p) (p_pos q)) re then push k0 re m p q else 0
                       | None => 0 end).
    assert (SV : sumv ps1 i (fun _ q => scaleR (push k0 re m (set_minp p m) q) (diffR (p_pos p) (p_pos q))) =
                 sumv ps i (fun j q => scaleR (k j) (diffR (p_pos p) (p_pos q)))).
    { assert (SO : forall c : vecR -> R,
        sum_others ps1 i (fun _ q => push k0 re m (set_minp p m) q * c (diffR (p_pos p) (p_pos q))) =
        sum_others ps i (fun j q => k j * c (diffR (p_pos p) (p_pos q)))).
      { intros c. unfold sum_others. rewrite L1. apply rsum_ext. intros j Hj. apply in_seq in Hj.
        destruct (nth_error_ext_length ps j) as [q Hq]; [lia|]. destruct (Forall2_nth _ _ _ _ _ M Hq) as (q1 & Hq1 & Eq). rewrite Hq, Hq1, Eq.
        change (p_type (set_minp q (p_minp q1))) with (p_type q). change (p_pos (set_minp q (p_minp q1))) with (p_pos q).
        destruct (_ || _) eqn:B; auto. f_equal. unfold k. rewrite Hq, B.
        destruct (Rlt_dec _ _); [reflexivity|]. unfold push. change (p_pos (set_minp q (p_minp q1))) with (p_pos q). change (p_pos (set_minp p m)) with (p_pos p).
        rewrite w_out by lra. destruct (ghost_or_dummy _); unfold Rdiv; ring. }
      unfold sumv. f_equal; [apply (SO vx)|apply (SO vy)|apply (SO vz)]. }
    exists k. split; [|split; [|split]].
    + now rewrite SV.
    + intros j. unfold k. destruct (nth_error ps j) as [q|] eqn:Hq; [|lra]. destruct (_ || _) eqn:B; [lra|].
      destruct (Rlt_dec (euclid (p_pos p) (p_pos q)) re) as [l|l]; [|lra]. apply orb_false_iff in B. destruct B as [B1 B2]. apply Nat.eqb_neq in B1. apply Z.eqb_neq in B2.
      unfold push. destruct (ghost_or_dummy q) eqn:G; [lra|]. apply god_false in G.
      assert (E0 : 0 < euclid (p_pos p) (p_pos q)) by (apply euclid_pos; apply (A i j); auto).
      assert (P0 : 0 <= p_press q - m) by (assert (m <= p_press q) by (apply (M2 j); unfold interacts; tauto); lra).
      apply Rmult_le_pos; [|left; apply Rinv_0_lt_compat, pow_lt; auto].
      apply Rmult_le_pos; [now apply Rmult_le_pos|now apply w_nonneg].
    + intros j q Hq NI. unfold k. rewrite Hq. destruct (_ || _) eqn:B; auto. destruct (Rlt_dec _ _) as [l|l]; auto.
      apply orb_false_iff in B. destruct B as [B1 B2]. apply Nat.eqb_neq in B1. apply Z.eqb_neq in B2.
      unfold push. destruct (ghost_or_dummy q) eqn:G; auto. apply god_false in G. exfalso. apply NI. unfold interacts. tauto.
    + intros EQ. assert (EM : m = p_press p). { destruct M3 as [e|(j & q & Ij & e)]; auto. rewrite e. eauto. }
      rewrite SV. rewrite (sumv_ext ps i _ (fun _ _ => zeroR)).
      * unfold sumv, sum_others. apply vec_ext; simpl; rewrite rsum_zero; try ringR; intros j _; destruct (nth_error ps j); auto; destruct (_ || _); auto.
      * intros j q Hq N Tq. replace (k j) with 0; [apply vec_ext; simpl; ringR|]. unfold k. rewrite Hq. destruct (_ || _) eqn:B; auto.
        destruct (Rlt_dec _ _) as [l|l]; auto. unfold push. destruct (ghost_or_dummy q) eqn:G; auto. apply god_false in G.
        rewrite (EQ j q), EM by (unfold interacts; tauto). unfold Rdiv. ring.
Qed.

(** ** C22: the Courant number *)
Lemma nmax_R a b : @nmax Rnum a b = Rmax a b.
Proof. unfold nmax. simpl. unfold Rmax. destruct (Rlt_bool_spec a b), (Rle_dec a b); lra. Qed.

Lemma norm_R (v : vecR) : @vnorm Rnum v = sqrt (dotR v v).
Proof. reflexivity. Qed.

Lemma courant_max (s : @settings Rnum) (ps : list partR) c0 :
  let c := fold_left (courant1 s) ps c0 in
  c0 <= c /\
  (forall p, In p ps -> p_type p = Fluid -> sqrt (dotR (p_vel p) (p_vel p)) * s_dt s / s_l0 s <= c) /\
  (c = c0 \/ exists p, In p ps /\ p_type p = Fluid /\ c = sqrt (dotR (p_vel p) (p_vel p)) * s_dt s / s_l0 s).
Proof.
  revert c0. induction ps as [|p ps IH]; intros c0; simpl.
  - repeat split; auto; try lra. intros ? [].
  - destruct (IH (courant1 s c0 p)) as (H1 & H2 & H3). set (c := fold_left (courant1 s) ps (courant1 s c0 p)) in *.
    change (fold_left (courant1 s) ps (courant1 s c0 p)) with c. clearbody c. unfold courant1 in H1, H3. unfold is_type in *. destruct (Z.eqb_spec (p_type p) Fluid) as [T|T].
    + rewrite nmax_R, norm_R in H1, H3. simpl in H1, H3. set (b := sqrt (dotR (p_vel p) (p_vel p)) * s_dt s / s_l0 s) in *.
      assert (B1 := Rmax_l c0 b). assert (B2 := Rmax_r c0 b). split; [lra|]. split.
      * intros q [<-|Hq] Tq; [fold b; lra|auto].
      * destruct H3 as [e|(q & Q1 & Q2 & Q3)]; [|right; exists q; auto].
        unfold Rmax in e. destruct (Rle_dec c0 b); [right; exists p; auto|auto].
    + split; auto. split.
      * intros q [<-|Hq] Tq; [contradiction|auto].
      * destruct H3 as [e|(q & Q1 & Q2 & Q3)]; auto. right. exists q. auto.
Qed.

Lemma Rlt_bool_iff (a b : R) : Rlt_bool a b = true <-> a < b.
Proof. destruct (Rlt_bool_spec a b); split; intros; auto; try discriminate. lra. Qed.

Lemma C22_lemma (s : @settings Rnum) (ps : list partR) : 0 < s_l0 s -> 0 <= s_dt s ->
  let '(c, err) := calCourant s ps in
  ((forall p, In p ps -> p_type p <> Fluid) -> c = 0) /\
  (forall p, In p ps -> p_type p = Fluid -> sqrt (dotR (p_vel p) (p_vel p)) * s_dt s / s_l0 s <= c) /\
  ((exists p, In p ps /\ p_type p = Fluid) -> exists p, In p ps /\ p_type p = Fluid /\ c = sqrt (dotR (p_vel p) (p_vel p)) * s_dt s / s_l0 s) /\
  (err = true <-> s_cfl s < c).
Proof.
  intros Hl Hd. unfold calCourant. assert (H := courant_max s ps 0). simpl in H. destruct H as (H1 & H2 & H3). split; [|split; [|split]]; auto.
  - intros NF. destruct H3 as [e|(p & P1 & P2 & _)]; auto. exfalso. eapply NF; eauto.
  - intros (p & P1 & P2). destruct H3 as [e|H3]; auto. exists p. split; auto. split; auto. specialize (H2 p P1 P2).
    simpl. rewrite e in *. apply Rle_antisym; auto. apply Rmult_le_pos; [apply Rmult_le_pos; auto; apply sqrt_pos|left; now apply Rinv_0_lt_compat].
  - apply Rlt_bool_iff.
Qed.
