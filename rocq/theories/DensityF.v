(** * Number densities in doubles (C10) *)
From Coq Require Import Reals Lra PeanoNat.
From Flocq Require Import Core.
From Verif Require Export SpecF WeightF StepFacts Planar.
Open Scope R_scope.

Lemma nonneg_F (x : f64) : nonnegF x -> x = B754_infinity false \/ fin x = true /\ 0 <= F2r x.
Proof.
  unfold nonnegF. destruct (fin x) eqn:F; [intros H; apply Fle_fin in H; auto|]. destruct x as [|[]| |]; try discriminate; auto.
Qed.
Lemma F_nonneg (x : f64) : fin x = true -> 0 <= F2r x -> nonnegF x.
Proof. intros F H. apply Fle_fin; auto. Qed.
Lemma F_pos (x : f64) : fin x = true -> 0 < F2r x -> posF x.
Proof. intros F H. apply Flt_fin; auto. Qed.
Lemma pos_nonneg x : posF x -> nonnegF x.
Proof. apply nlt_nle. Qed.
Lemma Bsign_nonneg (x : f64) : 0 < F2r x -> Bsign x = false.
Proof.
  destruct x as [| | |s m e H]; simpl; try lra. destruct s; auto. intros U. exfalso. assert (K := F2R_lt_0 radix2 (Float radix2 (Zneg m) e) eq_refl). simpl in *. lra.
Qed.
Lemma add_nonneg a b : nonnegF a -> nonnegF b -> nonnegF (@nadd F64 a b) /\ (posF (@nadd F64 a b) <-> posF a \/ posF b).
Proof.
  intros A B. destruct (nonneg_F a A) as [->|[Fa Pa]].
  { destruct (nonneg_F b B) as [->|[Fb Pb]]; [split; [reflexivity|split; auto; reflexivity]|]. destruct b as [| | |]; try discriminate; (split; [reflexivity|split; [left; reflexivity|reflexivity]]). }
  destruct (nonneg_F b B) as [->|[Fb Pb]].
  { destruct a as [| | |]; try discriminate; (split; [reflexivity|split; [right; reflexivity|reflexivity]]). }
  pose proof (Bplus_correct 53 1024 _ _ mode_NE a b Fa Fb) as C.
  assert (R0 : 0 <= rndF (F2r a + F2r b)) by (rewrite <- rndF_0; apply rndF_le; lra).
  destruct (Rlt_bool_spec (Rabs (rndF (F2r a + F2r b))) (bpow radix2 1024)) as [H|H].
  - destruct C as (C1 & C2 & _). split; [apply F_nonneg; auto; change (@nadd F64 a b) with (Bplus mode_NE a b); rewrite C1; auto|]. split.
    + intros P. apply Flt_fin in P; auto. change (@nadd F64 a b) with (Bplus mode_NE a b) in P. rewrite C1 in P. change (F2r (@nofZ F64 0)) with 0 in P.
      destruct (Rle_lt_or_eq_dec _ _ Pa) as [G|G]; [left; apply F_pos; auto|]. destruct (Rle_lt_or_eq_dec _ _ Pb) as [G'|G']; [right; apply F_pos; auto|].
      rewrite <- G, <- G', Rplus_0_l, rndF_0 in P. lra.
    + intros P. apply F_pos; auto. change (@nadd F64 a b) with (Bplus mode_NE a b). rewrite C1. destruct P as [P|P]; apply Flt_fin in P; auto; change (F2r (@nofZ F64 0)) with 0 in P.
      * apply Rlt_le_trans with (F2r a); auto. rewrite <- (rndF_B2R a) at 1. apply rndF_le. lra.
      * apply Rlt_le_trans with (F2r b); auto. rewrite <- (rndF_B2R b) at 1. apply rndF_le. lra.
  - destruct C as [C1 C2]. assert (NZ : 0 < F2r a \/ 0 < F2r b).
    { destruct (Rle_lt_or_eq_dec _ _ Pa) as [G|G]; auto. destruct (Rle_lt_or_eq_dec _ _ Pb) as [G'|G']; auto. exfalso. rewrite <- G, <- G', Rplus_0_l, rndF_0, Rabs_R0 in H.
      apply (Rlt_irrefl 0). eapply Rlt_le_trans; [apply (bpow_gt_0 radix2 1024)|exact H]. }
    assert (S : Bsign a = false). { destruct NZ as [K|K]; [apply Bsign_nonneg; auto|]. rewrite C2. apply Bsign_nonneg; auto. }
    rewrite S in C1. apply over_inf in C1. change (@nadd F64 a b) with (Bplus mode_NE a b). rewrite C1. split; [reflexivity|]. split; [|reflexivity].
    intros _. destruct NZ; [left|right]; apply F_pos; auto.
Qed.

(** the weight at any distance the search can find *)
Lemma weight_nonneg asserts (re d w : f64) : fin re = true -> posF d \/ d = B754_zero false -> posF re \/ posF d -> @weight F64 asserts d re = Ok w ->
  nonnegF w /\ (posF w <-> @nlt F64 d re = true).
Proof.
  intros Fr D RD H. destruct D as [D| ->].
  - destruct (C08_F asserts re d Fr D) as (w' & E & Z & P). rewrite H in E. inv E.
    destruct (@nlt F64 d re) eqn:L; [destruct (P eq_refl); split; [apply pos_nonneg; auto|split; auto]|].
    assert (G : @nle F64 re d = true).
    { destruct (pos_F d D) as [->|[Fd Pd]]; [apply fin_inf; auto|]. apply Fle_fin; auto. apply Flt_fin_false in L; auto. }
    rewrite (Z G). split; [reflexivity|]. split; discriminate.
  - destruct RD as [P|P]; [|discriminate P]. unfold weight in H. binds H. apply (f_equal (fun o => match o with Ok x => x | _ => w end)) in H. cbv beta iota in H. rewrite <- H. clear H. destruct (pos_F re P) as [->|[_ Q]]; [discriminate|].
    assert (E1 : @nle F64 re (B754_zero false) = false).
    { destruct (@nle F64 re (B754_zero false)) eqn:E1; auto. apply Fle_fin in E1; auto. change (F2r (B754_zero false)) with 0 in E1. lra. }
    rewrite E1. assert (E2 : @nlt F64 (B754_zero false) re = true) by (apply Flt_fin; auto). rewrite E2.
    assert (X : @nsub F64 (@ndiv F64 re (B754_zero false)) (@nofZ F64 1) = B754_infinity false).
    { destruct re as [|[]| |[]]; try discriminate; try reflexivity. }
    rewrite X. split; [reflexivity|]. split; reflexivity.
Qed.

(** ** the stage *)
Lemma sum_nonneg asserts (re : f64) l n r : fin re = true -> posF re -> (forall nb, In nb l -> posF (nb_dist nb) \/ nb_dist nb = B754_zero false) -> nonnegF n ->
  foldM (fun (nb : @neighbor F64) n => w <- @weight F64 asserts (nb_dist nb) re ;; Ok (@nadd F64 n w)) l n = Ok r ->
  nonnegF r /\ (posF r <-> posF n \/ exists nb, In nb l /\ @nlt F64 (nb_dist nb) re = true).
Proof.
  intros Fr P. revert n. induction l as [|nb l IH]; intros n HL N H; cbn [foldM] in H.
  - inv H. split; auto. split; auto. intros [?|(? & [] & _)]; auto.
  - binds H. binds E. inv E. destruct (weight_nonneg _ _ _ _ Fr (HL nb (or_introl eq_refl)) (or_introl P) E0) as [W1 W2].
    destruct (add_nonneg n r1 N W1) as [A1 A2].
    destruct (IH _ (fun nb' I => HL nb' (or_intror I)) A1 H) as [R1 R2]. split; auto. rewrite R2, A2, W2. clear. split.
    + intros [[?|?]|(x & I & L)]; auto; right; [exists nb|exists x]; simpl; auto.
    + intros [?|(x & [<-|I] & L)]; auto. right. exists x. auto.
Qed.

Lemma sum_total asserts (re : f64) l n : fin re = true -> (forall nb, In nb l -> posF (nb_dist nb)) ->
  exists r, foldM (fun (nb : @neighbor F64) n => w <- @weight F64 asserts (nb_dist nb) re ;; Ok (@nadd F64 n w)) l n = Ok r.
Proof.
  intros Fr. revert n. induction l as [|nb l IH]; intros n HL; cbn [foldM]; eauto.
  destruct (C08_F asserts re _ Fr (HL nb (or_introl eq_refl))) as (w & -> & _). cbn [bind]. apply IH. simpl in HL; auto.
Qed.

(** distances are not negative, not even negative zeros *)
Definition good (x : f64) : Prop := is_nan x = true \/ Bsign x = false.
Lemma sign_over (x : f64) s : B2SF x = binary_overflow 53 1024 mode_NE s -> Bsign x = s.
Proof. destruct x as [|[]| |], s; unfold binary_overflow; simpl; intros H; (reflexivity || discriminate H). Qed.
Lemma good_sq (x : f64) : good (@nmul F64 x x).
Proof.
  unfold good. change (@nmul F64 x x) with (Bmult mode_NE x x). destruct (is_nan (Bmult mode_NE x x)) eqn:E; auto. right. pose proof (Bmult_correct 53 1024 _ _ mode_NE x x) as C.
  destruct (Rlt_bool _ _); [destruct C as (_ & _ & C); rewrite (C E)|apply sign_over in C; rewrite C]; now rewrite xorb_nilpotent.
Qed.
Lemma nonneg_sign (x : f64) : fin x = true -> Bsign x = false -> 0 <= F2r x.
Proof. destruct x as [| | |s m e H]; simpl; try discriminate; try lra. intros _ ->. apply F2R_ge_0. simpl. lia. Qed.
Lemma good_add (x y : f64) : good x -> good y -> good (@nadd F64 x y).
Proof.
  intros [X|X]. { destruct x; try discriminate. left. reflexivity. }
  intros [Y|Y]. { destruct y; try discriminate. left. destruct x; reflexivity. }
  right. destruct (fin x) eqn:Fx.
  2: { destruct x as [|s| |]; try discriminate; try reflexivity. simpl in X. subst. destruct y as [|sy| |]; try reflexivity. simpl in Y. subst. reflexivity. }
  destruct (fin y) eqn:Fy.
  2: { destruct y as [|s| |]; try discriminate; [simpl in Y; subst|]; destruct x as [|sx| |]; try discriminate; reflexivity. }
  pose proof (Bplus_correct 53 1024 _ _ mode_NE x y Fx Fy) as C. assert (A := nonneg_sign x Fx X). assert (B := nonneg_sign y Fy Y).
  destruct (Rlt_bool _ _).
  - destruct C as (_ & _ & C). change (@nadd F64 x y) with (Bplus mode_NE x y). rewrite C, X, Y. destruct (Rcompare_spec (F2r x + F2r y) 0); auto. lra.
  - destruct C as (C & _). apply sign_over in C. change (@nadd F64 x y) with (Bplus mode_NE x y). rewrite C. exact X.
Qed.
Lemma good_sqrt (x : f64) : good x -> good (@nsqrt F64 x).
Proof.
  intros [X|X]. { destruct x; try discriminate. left. reflexivity. }
  unfold good. destruct (is_nan (@nsqrt F64 x)) eqn:E; auto. right. pose proof (Bsqrt_correct 53 1024 _ _ mode_NE x) as (_ & _ & C).
  change (@nsqrt F64 x) with (Bsqrt mode_NE x) in *. rewrite (C E). exact X.
Qed.
Lemma good_norm (v : @vec F64) : good (@vnorm F64 v).
Proof. apply good_sqrt, good_add; [apply good_add|]; apply good_sq. Qed.
Lemma good_near (x re : f64) : good x -> @nlt F64 x re = true -> posF x \/ x = B754_zero false.
Proof.
  unfold posF. intros [X|X] L; [destruct x; try discriminate; destruct re; discriminate|]. destruct x as [s|s| |s m e H]; simpl in X; subst; auto.
Qed.

Definition near_list (l : list (@neighbor F64)) : Prop := forall nb, In nb l -> posF (nb_dist nb) \/ nb_dist nb = B754_zero false.
Definition near_lists (p : @particle F64) : Prop := p_type p <> Ghost -> forall nb, In nb (p_nbrs p) -> posF (nb_dist nb) \/ nb_dist nb = B754_zero false.
Lemma walk_near fuel re ps next (pi : @particle F64) j acc l : (forall nb, In nb acc -> posF (nb_dist nb) \/ nb_dist nb = B754_zero false) ->
  walk fuel re ps next pi j acc = Ok l -> forall nb, In nb l -> posF (nb_dist nb) \/ nb_dist nb = B754_zero false.
Proof.
  revert j acc. induction fuel as [|fuel IH]; intros j acc A; cbn [walk]; destruct (j =? -1)%Z; intros H; try discriminate; try (inv H; auto; fail).
  binds H. binds H. revert H. apply IH. destruct (negb _ && _)%bool eqn:E1; auto. apply andb_prop in E1. destruct E1 as [_ E1].
  intros nb I. apply in_app_or in I. destruct I as [I|[<-|[]]]; auto. cbn [nb_dist]. eapply good_near; [apply good_norm|exact E1].
Qed.
Lemma each_forall {A} (P : A -> Prop) (body : list A -> A -> outcome A) l l' : each body l = Ok l' -> (forall w a a', body w a = Ok a' -> P a') -> Forall P l'.
Proof.
  intros H HB. unfold each in H.
  assert (K : forall n k w w', List.length w = (k + n)%nat -> (forall i a, (i < k)%nat -> nth_error w i = Some a -> P a) ->
    foldM (fun i w => match nth_error w i with Some a => a' <- body w a ;; Ok (upd w i a') | None => Undef OutOfBounds end) (seq k n) w = Ok w' ->
    forall i a, nth_error w' i = Some a -> P a).
  { induction n as [|n IH]; intros k w w' L HW E; cbn [seq foldM] in E.
    - inv E. intros i a Ha. apply (HW i); auto. assert (nth_error w' i <> None) by congruence. apply nth_error_Some in H0. lia.
    - binds E. destruct (nth_error w k) as [a|] eqn:Ek; [|discriminate]. binds E0. inv E0. eapply IH; [|  |exact E].
      + rewrite length_upd. lia.
      + intros i b Hi Hb. destruct (Nat.eq_dec i k) as [->|ne].
        * rewrite nth_upd_same in Hb; [inv Hb; eauto|]. lia.
        * rewrite nth_upd_other in Hb by auto. apply (HW i); auto. lia. }
  apply Forall_forall. intros a Ha. apply In_nth_error in Ha. destruct Ha as [i Ha]. eapply (K (List.length l) 0%nat l); eauto. intros; lia.
Qed.
Lemma search_near ns ps ns' ps' : setNeighbors ns ps = Ok (ns', ps') -> Forall near_lists ps'.
Proof.
  unfold setNeighbors. intros H. binds H. destruct r as [b ps1]. binds H. inv H. clear E.
  apply each_forall with (1 := E0). intros w a a' H. unfold neighborsOf in H. destruct (is_type a Ghost) eqn:T; [inv H; intros N; apply is_type_eq in T; contradiction|].
  binds H. binds H. inv H. intros _. cbn [p_nbrs set_nbrs]. clear - E1.
  change (near_list r0). revert E1. apply foldM_inv; [intros ? []|].
  intros c l l' _ A H. binds H. binds H. exact (walk_near _ _ _ _ _ _ _ _ A H).
Qed.

Lemma C10_F (s : @settings F64) (re : f64) ps : fin re = true -> posF re ->
  (forall p nb, In p ps -> p_type p <> Ghost -> In nb (p_nbrs p) -> posF (nb_dist nb)) ->
  exists ps', @calNumberDensity F64 s re ps = Ok ps' /\ List.length ps' = List.length ps /\
    forall i p, nth_error ps i = Some p -> exists n : f64, nth_error ps' i = Some (set_nd p n) /\
      (p_type p = Ghost -> n = B754_zero false) /\
      (p_type p <> Ghost -> nonnegF n /\ (posF n <-> exists nb, In nb (p_nbrs p) /\ @nlt F64 (nb_dist nb) re = true)).
Proof.
  intros F P L. rewrite calNumberDensity_mapM. destruct (mapM_total (calNumberDensity1 s re ps) ps) as [ps' E].
  { intros a Ha. unfold calNumberDensity1. destruct (is_type a Ghost) eqn:T; [eauto|]. apply is_type_neq in T.
    destruct (sum_total (s_asserts s) re (p_nbrs a) (@nofZ F64 0) F (fun nb => L a nb Ha T)) as [r ->]. cbn [bind]. eauto. }
  exists ps'. split; auto. apply mapM_ok in E. split; [symmetry; eapply Forall2_length; eauto|].
  intros i p Hp. destruct (Forall2_nth _ _ _ _ _ E Hp) as (p' & Hp' & H). assert (Ip := nth_error_In _ _ Hp). unfold calNumberDensity1 in H. destruct (is_type p Ghost) eqn:T.
  - apply is_type_eq in T. exists (B754_zero false). inv H. split; auto. split; auto. contradiction.
  - apply is_type_neq in T. binds H. inv H. exists r. split; auto. split; [contradiction|]. intros _.
    destruct (sum_nonneg _ _ _ _ _ F P (fun nb I => or_introl (L p nb Ip T I)) (eq_refl : nonnegF (@nofZ F64 0)) E0) as [A B]. split; auto. rewrite B. split; auto. intros [K|K]; auto. discriminate K.
Qed.

(** ** the whole step *)
Definition nd_fine (p : @particle F64) : Prop := nonnegF (p_nd p).
Lemma density_fine (s : @settings F64) (re : f64) ps ps' : fin re = true -> posF re -> Forall near_lists ps -> @calNumberDensity F64 s re ps = Ok ps' -> Forall nd_fine ps'.
Proof.
  intros F P L H. rewrite calNumberDensity_mapM in H. apply mapM_ok in H. revert L. induction H as [|a a' l l' H H' IH]; intros L; constructor; inv L; auto.
  unfold calNumberDensity1 in H. destruct (is_type a Ghost) eqn:T; [inv H; reflexivity|]. apply is_type_neq in T. binds H. inv H.
  exact (proj1 (sum_nonneg _ _ _ _ _ F P (H2 T) (eq_refl : nonnegF (@nofZ F64 0)) E)).
Qed.
Lemma fine_map (f : @particle F64 -> @particle F64) ps : (forall p, p_nd (f p) = p_nd p) -> Forall nd_fine ps -> Forall nd_fine (map f ps).
Proof. intros E F. induction F; simpl; constructor; auto. red. now rewrite E. Qed.
Lemma fine_each (body : list (@particle F64) -> @particle F64 -> outcome (@particle F64)) ps ps' : (forall w a a', body w a = Ok a' -> p_nd a' = p_nd a) -> each body ps = Ok ps' -> Forall nd_fine ps -> Forall nd_fine ps'.
Proof. intros K E F. revert E. apply Forall_each; auto. intros w a a' _ A H. red. rewrite (K _ _ _ H). exact A. Qed.

Lemma step_density S (m m' : @mps F64) : let re := s_reN (m_settings m) in fin re = true -> posF re -> stepForward S m = Ok m' -> Forall nd_fine (m_ps m').
Proof.
  intros re F P H. unfold stepForward in H. binds H. destruct r as [n1 p1]. binds H. destruct r as [n2 p2]. binds H. destruct r as [n3 p3]. binds H.
  destruct (calCourant _ _). inv H. cbn [m_ps].
  assert (F3 : Forall nd_fine p3).
  { unfold stepPressure in E1. binds E1. destruct r0 as [n0 q]. binds E1. binds E1. destruct r1 as [q2 x]. binds E1. inv E1.
    apply search_near in E3. apply density_fine in E4; auto.
    assert (Q : Forall nd_fine q2).
    { unfold calc in E5. destruct (m_calc m).
      - unfold implicitCalc in E5. binds E5. destruct r1 as [q3 d]. binds E5. inv E5. unfold generateBC in E1. binds E1. inv E1. revert E5 E4. apply fine_each.
        intros w a a' H. unfold setBC1 in H. destruct (ghost_or_dummy a); [inv H; reflexivity|]. binds H. inv H. reflexivity.
      - binds E5. inv E5. auto. }
    revert E6 Q. apply fine_each. intros w a a' H. binds H. inv H. reflexivity. }
  unfold stepCorrect in E2. binds E2. binds E2.
  assert (F4 : Forall nd_fine r0).
  { unfold setMinimumPressure in E3. revert E3. apply foldM_inv with (P := Forall nd_fine); [apply fine_map; auto|].
    intros i w w' _ Fw H. unfold minp1 in H. binds H. destruct (ghost_or_dummy _); [inv H; auto|]. revert H. apply foldM_inv with (P := Forall nd_fine); auto.
    intros nb u u' _ Fu H. unfold minp_pair in H. binds H. binds H. destruct (ghost_or_dummy _); [inv H; auto|]. destruct (_ <? _)%Z; [inv H; auto|]. destruct (nlt _ _); [|inv H; auto].
    binds H. eapply Forall_vmod in E7; [|exact Fu|intros a A; exact A]. eapply Forall_vmod in H; [exact H|exact E7|intros a A; exact A]. }
  assert (F5 : Forall nd_fine r1).
  { revert E4 F4. apply fine_each. intros w a a' H. unfold calPressureGradient1 in H. destruct (negb _); [inv H; auto|]. binds H. inv H. reflexivity. }
  assert (F6 : Forall nd_fine (moveParticleUsingPressureGradient (m_settings m) r1)).
  { apply fine_map; auto. intros p. unfold correct1. destruct (is_type p Fluid); reflexivity. }
  destruct (m_calc m); [inv E2; auto|]. binds E2. revert E2 F6. apply fine_each. intros w a a' H. binds H. inv H. reflexivity.
Qed.

Lemma C10_F_steps S n (m m' : @mps F64) : let re := s_reN (m_settings m) in fin re = true -> posF re -> (forall p, In p (m_ps m) -> nonnegF (p_nd p)) ->
  steps S n m m' -> forall p, In p (m_ps m') -> nonnegF (p_nd p).
Proof.
  intros re F P H0 H. apply Forall_forall. induction H; [apply Forall_forall; auto|].
  destruct (steps_static _ _ _ _ H) as (ES & _). eapply step_density; [| |eauto]; rewrite ES; auto.
Qed.
