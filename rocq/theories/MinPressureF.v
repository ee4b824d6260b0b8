(** * Minimum pressure in doubles (C20) *)
From Coq Require Import PeanoNat.
From Verif Require Export SpecF StepFacts FloatFacts WeightF.

Definition leF (a b : f64) : Prop := @nle F64 a b = true.
Lemma leF_refl a : numberF a -> leF a a.
Proof. apply nle_refl. Qed.
Lemma leF_number a b : leF a b -> numberF a /\ numberF b.
Proof. unfold leF, numberF. destruct a, b; simpl; try discriminate; auto. Qed.
Lemma leF_trans a b c : leF a b -> leF b c -> leF a c.
Proof.
  intros A B. destruct (leF_number _ _ A) as [Na Nb]. destruct (leF_number _ _ B) as [_ Nc]. unfold leF in *.
  destruct (fin a) eqn:Fa, (fin b) eqn:Fb, (fin c) eqn:Fc;
    try (apply Fle_fin; auto; apply Fle_fin in A; auto; apply Fle_fin in B; auto; eapply RIneq.Rle_trans; eauto; fail).
  all: destruct a as [|[]| |[]], b as [|[]| |[]], c as [|[]| |[]]; try discriminate; try reflexivity.
Qed.
Lemma leF_total a b : numberF a -> numberF b -> @nlt F64 b a = false -> leF a b.
Proof.
  intros Na Nb H. unfold leF. destruct (fin a) eqn:Fa, (fin b) eqn:Fb; [apply Fle_fin; auto; apply Flt_fin_false in H; auto| | |];
    destruct a as [|[]| |[]], b as [|[]| |[]]; try discriminate; reflexivity.
Qed.
Lemma nmin_l (a b : f64) : numberF a -> numberF b -> leF (@nmin F64 a b) a.
Proof. intros A B. unfold nmin. destruct (@nlt F64 b a) eqn:E; [apply nlt_nle, E|apply leF_refl; auto]. Qed.
Lemma nmin_r (a b : f64) : numberF a -> numberF b -> leF (@nmin F64 a b) b.
Proof. intros A B. unfold nmin. destruct (@nlt F64 b a) eqn:E; [apply leF_refl; auto|apply leF_total; auto]. Qed.
Lemma nmin_or (a b : f64) : @nmin F64 a b = a \/ @nmin F64 a b = b.
Proof. unfold nmin. destruct (@nlt F64 b a); auto. Qed.

Section MinP.
Variables (re : f64) (ps : list (@particle F64)).
Hypothesis MU : mutual ps.
Hypothesis ID : indexed ps.
Hypothesis NU : forall p, In p ps -> numberF (p_press p).

Lemma god_false (p : @particle F64) : ghost_or_dummy p = false <-> p_type p <> Ghost /\ p_type p <> DummyWall.
Proof. unfold ghost_or_dummy, is_type. rewrite orb_false_iff, !Z.eqb_neq. tauto. Qed.
Lemma god_true (p : @particle F64) : ghost_or_dummy p = true <-> p_type p = Ghost \/ p_type p = DummyWall.
Proof. unfold ghost_or_dummy, is_type. rewrite orb_true_iff, !Z.eqb_eq. tauto. Qed.

Definition min_inv (u : list (@particle F64)) : Prop :=
  List.length u = List.length ps /\
  forall k p, nth_error ps k = Some p -> exists m : f64, nth_error u k = Some (set_minp p m) /\
    (ghost_or_dummy p = true -> m = p_press p) /\ leF m (p_press p) /\
    (m = p_press p \/ exists j q, interactsF re ps p j q /\ m = p_press q).
Definition below (u : list (@particle F64)) (a b : nat) : Prop :=
  forall x q, nth_error u a = Some x -> nth_error ps b = Some q -> leF (p_minp x) (p_press q).
Definition pair_done (i : nat) (nb : @neighbor F64) (u : list (@particle F64)) : Prop :=
  forall q, nth_error ps (Z.to_nat (nb_id nb)) = Some q -> ghost_or_dummy q = false -> (nb_id nb < Z.of_nat i)%Z -> @nlt F64 (nb_dist nb) re = true ->
    below u i (Z.to_nat (nb_id nb)) /\ below u (Z.to_nat (nb_id nb)) i.
Definition down (u u' : list (@particle F64)) : Prop :=
  forall k x', nth_error u' k = Some x' -> exists x, nth_error u k = Some x /\ (p_minp x' = p_minp x \/ leF (p_minp x') (p_minp x)).

Lemma down_refl u : down u u.
Proof. intros k x H. exists x. split; auto. Qed.
Lemma down_trans u v w : down u v -> down v w -> down u w.
Proof.
  intros A B k x H. destruct (B k x H) as (y & H1 & H2). destruct (A k y H1) as (z & H3 & H4). exists z. split; auto.
  destruct H2 as [->|H2]; auto. destruct H4 as [<-|H4]; auto. right. eapply leF_trans; eauto.
Qed.
Lemma down_below u u' a b : down u u' -> below u a b -> below u' a b.
Proof. intros D B x q Hx Hq. destruct (D a x Hx) as (y & Hy & [->|Hl]); [eapply B; eauto|]. specialize (B y q Hy Hq). eapply leF_trans; eauto. Qed.
Lemma down_done i nb u u' : down u u' -> pair_done i nb u -> pair_done i nb u'.
Proof. intros D P q H1 H2 H3 H4. destruct (P q H1 H2 H3 H4). split; eapply down_below; eauto. Qed.

Lemma press_number k p : nth_error ps k = Some p -> numberF (p_press p).
Proof. intros H. apply NU. eapply nth_error_In; eauto. Qed.
Lemma inv_number u k p m : min_inv u -> nth_error ps k = Some p -> nth_error u k = Some (set_minp p m) -> numberF m.
Proof.
  intros (_ & HU) Hp Hu. destruct (HU k p Hp) as (m' & Hm & _ & L & _). rewrite Hu in Hm. assert (m = m') by (inversion Hm; auto). subst. apply (leF_number _ _ L).
Qed.

Lemma pair_run i p nb u : nth_error ps i = Some p -> ghost_or_dummy p = false -> In nb (p_nbrs p) -> min_inv u ->
  exists u', @minp_pair F64 re i nb u = Ok u' /\ min_inv u' /\ pair_done i nb u' /\ down u u'.
Proof.
  intros Hp Gp Hin HI. pose proof HI as (Ln & HU). pose proof (proj1 (god_false p) Gp) as [TG TD].
  destruct (MU i p nb Hp TG Hin) as (j & q & E1 & N & Hq & Tq & Back).
  destruct (HU i p Hp) as (mi & Ui & _ & Mi & Wi). destruct (HU j q Hq) as (mj & Uj & Gj & Mj & Wj).
  assert (Ni := inv_number u i p mi HI Hp Ui). assert (Nj := inv_number u j q mj HI Hq Uj). assert (Np := press_number i p Hp). assert (Nq := press_number j q Hq).
  unfold minp_pair. rewrite (vget_nat _ _ _ Ui). cbn [bind]. rewrite E1, (vget_nat _ _ _ Uj). cbn [bind].
  change (ghost_or_dummy (set_minp q mj)) with (ghost_or_dummy q).
  destruct (ghost_or_dummy q) eqn:Gq.
  { exists u. split; auto. split; auto. split; [|apply down_refl]. intros q' H' G'. rewrite E1, Nat2Z.id in H'. congruence. }
  change (p_id (set_minp p mi)) with (p_id p). change (p_id (set_minp q mj)) with (p_id q). rewrite (ID _ _ Hp), (ID _ _ Hq).
  destruct (Z.ltb_spec (Z.of_nat i) (Z.of_nat j)) as [Lij|Lij].
  { exists u. split; auto. split; auto. split; [|apply down_refl]. intros q' H' G' Hl. rewrite E1 in Hl. lia. }
  destruct (@nlt F64 (nb_dist nb) re) eqn:Hd.
  2: { exists u. split; auto. split; auto. split; [|apply down_refl]. intros q' H' G' Hl Hdd. congruence. }
  rewrite (vmod_nat _ _ _ _ Ui). cbn [bind].
  assert (Uj' : nth_error (upd u i (set_minp (set_minp p mi) (nmin mi (p_press q)))) j = Some (set_minp q mj)) by (rewrite nth_upd_other; auto).
  cbn [p_minp set_minp p_press]. rewrite (vmod_nat _ _ _ _ Uj'). cbn [p_minp set_minp p_press].
  set (u' := upd (upd u i _) j _). exists u'. split; auto.
  assert (Li : (i < List.length u)%nat) by (apply nth_error_Some; congruence).
  assert (Lj : (j < List.length (upd u i (set_minp p (@nmin F64 mi (p_press q)))))%nat) by (apply nth_error_Some; rewrite nth_upd_other by auto; congruence).
  assert (Ri : nth_error u' i = Some (set_minp p (@nmin F64 mi (p_press q)))).
  { unfold u'. rewrite nth_upd_other by auto. now rewrite nth_upd_same. }
  assert (Rj : nth_error u' j = Some (set_minp q (@nmin F64 mj (p_press p)))).
  { unfold u'. now rewrite nth_upd_same. }
  assert (Ro : forall k, k <> i -> k <> j -> nth_error u' k = nth_error u k).
  { intros k H1 H2. unfold u'. now rewrite !nth_upd_other by auto. }
  apply god_false in Gq as [_ Dq].
  assert (Iij : interactsF re ps p j q) by (split; auto; split; auto; exists nb; auto).
  assert (Iji : interactsF re ps q i p). { split; auto. split; auto. eexists. split; [exact Back|]. auto. }
  split; [|split].
  - split. { unfold u'. now rewrite !length_upd. }
    intros k r Hk. destruct (Nat.eq_dec k i) as [->|ni]; [|destruct (Nat.eq_dec k j) as [->|nj]].
    + assert (r = p) by congruence. subst r. exists (@nmin F64 mi (p_press q)). split; auto. split; [congruence|].
      split; [eapply leF_trans; [apply nmin_l; auto|exact Mi]|].
      destruct (nmin_or mi (p_press q)) as [-> | ->]; auto. right. exists j, q. auto.
    + assert (r = q) by congruence. subst r. exists (@nmin F64 mj (p_press p)). split; auto.
      split. { intros G. apply god_true in G. intuition congruence. }
      split; [eapply leF_trans; [apply nmin_l; auto|exact Mj]|].
      destruct (nmin_or mj (p_press p)) as [-> | ->]; auto. right. exists i, p. auto.
    + rewrite Ro by auto. apply HU; auto.
  - intros q' H' _ _ _. rewrite E1, Nat2Z.id in *. rewrite Hq in H'. inv H'. split; intros x y Hx Hy.
    + rewrite Ri in Hx. inv Hx. assert (y = q') by congruence. subst y. apply nmin_r; auto.
    + rewrite Rj in Hx. inv Hx. assert (y = p) by congruence. subst y. apply nmin_r; auto.
  - intros k x' Hx'. destruct (Nat.eq_dec k i) as [->|ni]; [|destruct (Nat.eq_dec k j) as [->|nj]].
    + rewrite Ri in Hx'. inv Hx'. eexists. split; eauto. right. apply nmin_l; auto.
    + rewrite Rj in Hx'. inv Hx'. eexists. split; eauto. right. apply nmin_l; auto.
    + rewrite Ro in Hx' by auto. exists x'. split; auto.
Qed.

(** a loop that always continues *)
Lemma foldM_go {A St} (Inv : St -> Prop) (Q : A -> St -> Prop) (f : A -> St -> outcome St) xs s :
  Inv s ->
  (forall x u, In x xs -> Inv u -> exists u', f x u = Ok u' /\ Inv u' /\ Q x u' /\ forall y, Q y u -> Q y u') ->
  exists s', foldM f xs s = Ok s' /\ Inv s' /\ (forall x, In x xs -> Q x s') /\ (forall y, Q y s -> Q y s').
Proof.
  revert s. induction xs as [|x xs IH]; intros s HI HS; simpl.
  - exists s. repeat split; auto. intros ? [].
  - destruct (HS x s (or_introl eq_refl) HI) as (u & E & Iu & Qu & Su). rewrite E. simpl.
    destruct (IH u Iu) as (s' & E' & I' & Q' & S'). { intros. apply HS; simpl; auto. }
    exists s'. repeat split; auto. intros y [<-|Hy]; auto.
Qed.

Lemma row_run i u : (i < List.length ps)%nat -> min_inv u ->
  exists u', @minp1 F64 re i u = Ok u' /\ min_inv u' /\ down u u' /\
    forall p nb, nth_error ps i = Some p -> ghost_or_dummy p = false -> In nb (p_nbrs p) -> pair_done i nb u'.
Proof.
  intros Hi HI. destruct (nth_error ps i) as [p|] eqn:Hp; [|apply nth_error_None in Hp; lia]. pose proof HI as (Ln & HU). destruct (HU i p Hp) as (mi & Ui & _).
  unfold minp1. rewrite (vget_nat _ _ _ Ui). cbn [bind]. change (ghost_or_dummy (set_minp p mi)) with (ghost_or_dummy p).
  destruct (ghost_or_dummy p) eqn:G.
  { exists u. split; auto. split; auto. split; [apply down_refl|]. intros p' nb H' G'. congruence. }
  change (p_nbrs (set_minp p mi)) with (p_nbrs p).
  destruct (foldM_go (fun v => min_inv v /\ down u v) (fun nb v => pair_done i nb v) (@minp_pair F64 re i) (p_nbrs p) u) as (u' & E & (I' & D') & Q & _).
  - split; auto. apply down_refl.
  - intros nb v Hin [Iv Dv]. destruct (pair_run i p nb v Hp G Hin Iv) as (v' & E & I' & P & D). exists v'. split; auto.
    split; [split; auto; eapply down_trans; eauto|]. split; auto. intros y. now apply down_done.
  - exists u'. split; auto. split; auto. split; auto. intros p' nb H' _ Hin. assert (p' = p) by congruence. subst. auto.
Qed.

Lemma C20_F : exists ps', @setMinimumPressure F64 re ps = Ok ps' /\ List.length ps' = List.length ps /\
  forall i p, nth_error ps i = Some p -> exists m : f64, nth_error ps' i = Some (set_minp p m) /\
    (p_type p = Ghost \/ p_type p = DummyWall -> m = p_press p) /\
    (p_type p <> Ghost -> p_type p <> DummyWall ->
       @nle F64 m (p_press p) = true /\ (forall j q, interactsF re ps p j q -> @nle F64 m (p_press q) = true) /\
       (m = p_press p \/ exists j q, interactsF re ps p j q /\ m = p_press q)).
Proof.
  unfold setMinimumPressure. set (u0 := map _ ps).
  assert (I0 : min_inv u0).
  { split; [apply map_length|]. intros k p Hp. exists (p_press p). unfold u0. rewrite BaseFacts.nth_error_map, Hp. repeat split; auto. apply leF_refl. eapply press_number; eauto. }
  assert (LN : List.length u0 = List.length ps) by apply map_length. rewrite LN.
  destruct (foldM_go min_inv (fun i v => forall p nb, nth_error ps i = Some p -> ghost_or_dummy p = false -> In nb (p_nbrs p) -> pair_done i nb v)
              (@minp1 F64 re) (seq 0 (List.length ps)) u0 I0) as (ps' & E & (Ln & HU) & Q & _).
  { intros i v Hi Iv. apply in_seq in Hi. destruct (row_run i v) as (v' & Ev & I' & D & P); auto; [lia|].
    exists v'. split; auto. split; auto. split; auto. intros y H p nb Hp G Hin. eapply down_done; eauto. }
  exists ps'. split; auto. split; auto. intros i p Hp. destruct (HU i p Hp) as (m & Hm & G & M1 & M2). exists m. split; auto.
  split. { intros T. apply G. now apply god_true. }
  intros TG TD. split; auto. split; auto. intros j q (Hq & Dq & nb & Hin & Enb & Hd).
  assert (BS : forall a b pa pb nb, nth_error ps a = Some pa -> nth_error ps b = Some pb -> (b < a)%nat -> ghost_or_dummy pa = false -> ghost_or_dummy pb = false ->
            In nb (p_nbrs pa) -> nb_id nb = Z.of_nat b -> @nlt F64 (nb_dist nb) re = true -> below ps' a b /\ below ps' b a).
  { intros a b pa pb nb' Ha Hb Hlt Ga Gb Hab Eb Hd'.
    assert (Ia : In a (seq 0 (List.length ps))) by (apply in_seq; split; [lia|apply nth_error_Some; congruence]).
    assert (PD := Q a Ia pa nb' Ha Ga Hab). specialize (PD pb). rewrite Eb, Nat2Z.id in PD. apply PD; auto. lia. }
  assert (Gp : ghost_or_dummy p = false) by now apply god_false.
  destruct (MU i p nb Hp TG Hin) as (j' & q' & E1 & N & Hq' & Tq & Back). assert (j' = j) by lia. subst j'. assert (q' = q) by congruence. subst q'.
  assert (Gq : ghost_or_dummy q = false) by now apply god_false.
  destruct (lt_dec j i) as [l|l].
  - destruct (BS i j p q nb) as [B _]; auto. exact (B _ q Hm Hq).
  - destruct (BS j i q p _ Hq Hp ltac:(lia) Gq Gp Back eq_refl Hd) as [_ B]. exact (B _ q Hm Hq).
Qed.
End MinP.
