(** * The collision stage (exact arithmetic) *)
From Verif Require Export SumR.
From Coq Require Import PeanoNat.
From Verif Require Import SpecR.
#[local] Remove Hints F64 : typeclass_instances.
Open Scope R_scope.

Lemma vec_eq (a b : vecR) : vx a = vx b -> vy a = vy b -> vz a = vz b -> a = b.
Proof. destruct a, b; simpl; congruence. Qed.

Lemma rsum_upd {A} (f : A -> R) l i a b : nth_error l i = Some a -> rsum (map f (upd l i b)) = rsum (map f l) - f a + f b.
Proof.
  revert i. induction l; destruct i; simpl; intros H; try discriminate.
  - inv H. ring.
  - rewrite (IHl i H). ring.
Qed.

Lemma absorbs_zero_R : @absorbs_zero Rnum.
Proof. intros x a b. simpl. ring. Qed.

(** ** the unit normal *)
Lemma euclid_dot x y : euclid x y = sqrt (dotR (diffR y x) (diffR y x)).
Proof. unfold euclid, dotR, diffR. simpl. f_equal. ring. Qed.

Lemma vsub_diff x y : @vsub Rnum y x = diffR y x.
Proof. reflexivity. Qed.

Lemma normal_R (pi pj : partR) : p_pos pi <> p_pos pj -> pair_normal pi pj = unitR (p_pos pi) (p_pos pj).
Proof.
  intros H. unfold pair_normal, vnormalized, unitR. rewrite vsub_diff, euclid_dot.
  assert (P := euclid_pos _ _ H). rewrite euclid_dot in P.
  set (d := diffR (p_pos pj) (p_pos pi)) in *.
  change (@vsqnorm Rnum d) with (dotR d d). simpl nlt.
  rewrite Rlt_bool_true.
  - apply vec_eq; simpl; field; lra.
  - destruct (Rlt_dec 0 (dotR d d)) as [|n]; auto. rewrite (sqrt_neg (dotR d d)) in P; lra.
Qed.

Lemma unit_dot x y : x <> y -> dotR (unitR x y) (unitR x y) = 1.
Proof.
  intros H. assert (P := euclid_pos _ _ H). unfold unitR, along, dotR, zeroR. simpl.
  assert (Q : euclid x y * euclid x y = dotR (diffR y x) (diffR y x)).
  { rewrite euclid_dot. apply sqrt_sqrt. unfold dotR. nra. }
  unfold dotR, diffR in Q. simpl in Q.
  replace ((0 + / euclid x y * (vx y - vx x)) * (0 + / euclid x y * (vx y - vx x)) +
   (0 + / euclid x y * (vy y - vy x)) * (0 + / euclid x y * (vy y - vy x)) +
   (0 + / euclid x y * (vz y - vz x)) * (0 + / euclid x y * (vz y - vz x)))
   with (((vx y - vx x) * (vx y - vx x) + (vy y - vy x) * (vy y - vy x) + (vz y - vz x) * (vz y - vz x)) / (euclid x y * euclid x y)) by (field; lra).
  rewrite <- Q. field. lra.
Qed.

(** the square of the length of the normal is 1, or 0 for coinciding points *)
Lemma normal_unit_or_zero (pi pj : partR) : let n := pair_normal pi pj in dotR n n = 1 \/ (vx n = 0 /\ vy n = 0 /\ vz n = 0).
Proof.
  simpl. destruct (Req_dec (dotR (diffR (p_pos pj) (p_pos pi)) (diffR (p_pos pj) (p_pos pi))) 0) as [e|ne].
  - right. unfold pair_normal, vnormalized. rewrite vsub_diff. set (d := diffR _ _) in *. change (@vsqnorm Rnum d) with (dotR d d).
    simpl nlt. rewrite Rlt_bool_false by lra. unfold dotR in e. repeat split; nra.
  - left. assert (H : p_pos pi <> p_pos pj). { intros E. apply ne. rewrite E. unfold dotR, diffR. simpl. ring. }
    rewrite normal_R by auto. now apply unit_dot.
Qed.

(** ** C11 *)
Definition inv_mass (p : partR) : R := if (p_type p =? Fluid)%Z then / p_dens p else 0.
Lemma inverseDensity_R (p : partR) : @inverseDensity Rnum p = inv_mass p.
Proof. unfold inverseDensity, inv_mass, is_type. destruct (p_type p =? Fluid)%Z; simpl; auto. unfold Rdiv. ring. Qed.

Lemma C11_lemma (s : @settings Rnum) i j d (ps : list partR) pi pj :
  nth_error ps i = Some pi -> nth_error ps j = Some pj -> i <> j ->
  p_type pi = Fluid -> (p_type pj = Fluid -> (p_id pj < p_id pi)%Z) ->
  0 < p_dens pi -> (p_type pj = Fluid -> 0 < p_dens pj) -> p_pos pi <> p_pos pj -> d < s_colDist s ->
  let n := unitR (p_pos pi) (p_pos pj) in
  exists vi vj xi xj a b alpha beta,
    collide s i (@mkNb Rnum (Z.of_nat j) d) ps = Ok (upd (upd ps i (set_pos (set_vel pi vi) xi)) j (set_pos (set_vel pj vj) xj)) /\
    dotR n n = 1 /\
    (* velocities change along the line of centres only *)
    vi = along (p_vel pi) a n /\ vj = along (p_vel pj) b n /\
    (dotR (diffR (p_vel pj) (p_vel pi)) n < 0 -> dotR (diffR vj vi) n = - s_restitution s * dotR (diffR (p_vel pj) (p_vel pi)) n) /\
    (0 <= dotR (diffR (p_vel pj) (p_vel pi)) n -> a = 0 /\ b = 0) /\
    (p_type pj = Fluid -> p_dens pi * a + p_dens pj * b = 0) /\ (p_type pj <> Fluid -> b = 0) /\
    (* positions: pushed apart along the line of centres *)
    xi = along (p_pos pi) (- alpha) n /\ xj = along (p_pos pj) beta n /\
    0 <= alpha /\ 0 <= beta /\ alpha + beta = s_colDist s - d /\
    (p_type pj = Fluid -> p_dens pi * alpha = p_dens pj * beta) /\ (p_type pj <> Fluid -> beta = 0).
Proof.
  intros Hi Hj Hne Ti Tj Di Dj Hpos Hd n.
  assert (U : dotR n n = 1) by (now apply unit_dot).
  assert (NM : pair_normal pi pj = n) by (now apply normal_R).
  assert (Ii : inv_mass pi = / p_dens pi) by (unfold inv_mass; now rewrite Ti).
  set (m := / (inv_mass pi + inv_mass pj)).
  assert (Jn : 0 <= inv_mass pj).
  { unfold inv_mass. destruct (Z.eqb_spec (p_type pj) Fluid); [|lra]. left. apply Rinv_0_lt_compat; auto. }
  assert (Ip : 0 < inv_mass pi) by (rewrite Ii; now apply Rinv_0_lt_compat).
  assert (Mp : 0 < m) by (apply Rinv_0_lt_compat; lra).
  assert (Mi : m * (inv_mass pi + inv_mass pj) = 1) by (unfold m; apply Rinv_l; lra).
  set (u := dotR (diffR (p_vel pj) (p_vel pi)) n).
  set (J := if Rlt_bool u 0 then - (1 + s_restitution s) * u * m else 0).
  assert (PM : @pair_mass Rnum pi pj = m). { unfold pair_mass. rewrite !inverseDensity_R. simpl. unfold m, Rdiv. ring. }
  assert (PJ : pair_impulse s pi pj = J). { unfold pair_impulse. rewrite NM, PM. reflexivity. }
  exists (along (p_vel pi) (- (J * inv_mass pi)) n), (along (p_vel pj) (J * inv_mass pj) n),
         (along (p_pos pi) (- ((s_colDist s - d) * m * inv_mass pi)) n), (along (p_pos pj) ((s_colDist s - d) * m * inv_mass pj) n),
         (- (J * inv_mass pi)), (J * inv_mass pj), ((s_colDist s - d) * m * inv_mass pi), ((s_colDist s - d) * m * inv_mass pj).
  assert (G : 0 < s_colDist s - d) by lra.
  assert (FD : p_type pj = Fluid -> inv_mass pj = / p_dens pj) by (intros T; unfold inv_mass; now rewrite T).
  assert (WD : p_type pj <> Fluid -> inv_mass pj = 0) by (intros T; unfold inv_mass; now rewrite (proj2 (Z.eqb_neq _ _) T)).
  split; [|split; [exact U|split; [reflexivity|split; [reflexivity|]]]].
  - rewrite (collide_spec s i _ ps pi pj Hi); [|now apply vget_nat|simpl; rewrite Nat2Z.id; auto]. simpl nb_id. simpl nb_dist. rewrite Nat2Z.id.
    unfold skipped. replace (is_type pj Fluid && (p_id pi <=? p_id pj))%Z with false.
    2: { unfold is_type. destruct (Z.eqb_spec (p_type pj) Fluid); auto. simpl. symmetry. apply Z.leb_gt. auto. }
    simpl nlt. rewrite Rlt_bool_true by auto. f_equal. f_equal; [f_equal|].
    + unfold hit_i. rewrite NM, PJ, inverseDensity_R. unfold pair_push. rewrite PM. f_equal; [f_equal|]; apply vec_eq; simpl; ring.
    + unfold hit_j. rewrite NM, PJ, inverseDensity_R. unfold pair_push. rewrite PM. reflexivity.
  - fold u. split; [|split; [|split; [|split; [|split; [reflexivity|split; [reflexivity|]]]]]].
    + intros Hu.
      assert (E : dotR (diffR (along (p_vel pj) (J * inv_mass pj) n) (along (p_vel pi) (- (J * inv_mass pi)) n)) n
                = u + J * (inv_mass pi + inv_mass pj) * dotR n n).
      { unfold u, dotR, diffR, along. simpl. ring. }
      rewrite E, U. unfold J. rewrite Rlt_bool_true by auto.
      replace (- (1 + s_restitution s) * u * m * (inv_mass pi + inv_mass pj)) with (- (1 + s_restitution s) * u * (m * (inv_mass pi + inv_mass pj))) by ring.
      rewrite Mi. ring.
    + intros Hu. unfold J. rewrite Rlt_bool_false by auto. split; ring.
    + intros T. rewrite (FD T), Ii. specialize (Dj T). field. split; lra.
    + intros T. rewrite (WD T). ring.
    + split; [apply Rmult_le_pos; [apply Rmult_le_pos|]; lra|]. split; [apply Rmult_le_pos; [apply Rmult_le_pos|]; lra|].
      split; [|split].
      * replace ((s_colDist s - d) * m * inv_mass pi + (s_colDist s - d) * m * inv_mass pj) with ((s_colDist s - d) * (m * (inv_mass pi + inv_mass pj))) by ring.
        rewrite Mi. ring.
      * intros T. rewrite (FD T), Ii. specialize (Dj T). field. split; lra.
      * intros T. rewrite (WD T). ring.
Qed.

(** ** effect of one pair on sums *)
Lemma collide_cases (s : @settings Rnum) i nb (ps ps' : list partR) : collide s i nb ps = Ok ps' ->
  (forall p, nth_error ps i = Some p -> p_type p = Fluid) ->
  ps' = ps \/ exists pi pj, nth_error ps i = Some pi /\ nth_error ps (Z.to_nat (nb_id nb)) = Some pj /\ Z.to_nat (nb_id nb) <> i /\
    nb_dist nb < s_colDist s /\
    ps' = upd (upd ps i (hit_i s (nb_dist nb) pi pj)) (Z.to_nat (nb_id nb)) (hit_j s (nb_dist nb) pi pj).
Proof.
  intros H HF. pose proof H as H0. unfold collide in H0. binds H0. binds H0. clear H0.
  apply vget_nat_inv in E. pose proof E0 as E1. apply vget_ok in E0. destruct E0 as [J0 Ej].
  destruct (Nat.eq_dec (Z.to_nat (nb_id nb)) i) as [e|ne].
  - rewrite (collide_self s i nb ps r) in H; auto; [inv H; auto|lia].
  - rewrite (collide_spec _ _ _ _ _ _ E E1 ne) in H. inv H. destruct (skipped r r0); auto.
    simpl nlt. destruct (Rlt_bool_spec (nb_dist nb) (s_colDist s)); auto. right. exists r, r0. auto 10.
Qed.

Lemma rsum_upd2 {A} (f : A -> R) l i j a b a' b' : nth_error l i = Some a -> nth_error l j = Some b -> j <> i ->
  rsum (map f (upd (upd l i a') j b')) = rsum (map f l) - f a - f b + f a' + f b'.
Proof.
  intros Hi Hj N. rewrite (rsum_upd f (upd l i a') j b) by (rewrite nth_upd_other; auto).
  rewrite (rsum_upd f l i a) by auto. ring.
Qed.

(** what the collisions leave alone *)
Definition still (p p' : partR) : Prop :=
  p_type p' = p_type p /\ p_nbrs p' = p_nbrs p /\ p_dens p' = p_dens p /\ p_id p' = p_id p /\
  (p_type p <> Fluid -> p_pos p' = p_pos p /\ p_vel p' = p_vel p).

Definition same_list (p p' : partR) : Prop := p_type p' = p_type p /\ p_nbrs p' = p_nbrs p.
Lemma same_list_next ps w w' : Forall2 same_list ps w ->
  (forall k p, nth_error w k = Some p -> exists p', nth_error w' k = Some p' /\ p_type p' = p_type p /\ p_nbrs p' = p_nbrs p) ->
  List.length w' = List.length w -> Forall2 same_list ps w'.
Proof.
  intros F. revert w'. induction F as [|x y l l' Kxy F IH]; intros [|y' l''] G L; simpl in L; try lia; constructor.
  - destruct (G 0%nat y eq_refl) as (p' & E & T1 & T2). simpl in E. inv E. destruct Kxy. split; congruence.
  - apply IH; [|lia]. intros k p Hp. apply (G (S k) p Hp).
Qed.

(** the invariants of the whole stage follow from those of one pair *)
Lemma collision_ind (s : @settings Rnum) (P : list partR -> Prop) ps ps' :
  collision s ps = Ok ps' -> P ps ->
  (forall u u' i nb p q, P u -> collide s i nb u = Ok u' -> Forall2 still ps u ->
     nth_error ps i = Some p -> p_type p = Fluid -> In nb (p_nbrs p) -> nth_error ps (Z.to_nat (nb_id nb)) = Some q -> P u') ->
  P ps'.
Proof.
  intros H HP HS.
  set (K := same_list).
  assert (KT := same_list_next ps). fold K in KT.
  assert (KN : forall w i p, Forall2 K ps w -> nth_error w i = Some p -> exists p0, nth_error ps i = Some p0 /\ p_type p = p_type p0 /\ p_nbrs p = p_nbrs p0).
  { intros w i p F Hp. destruct (Forall2_nth_r _ _ _ _ _ F Hp) as (p0 & H0 & [K1 K2]). exists p0. auto. }
  unfold collision in H.
  refine (proj1 (_ : P ps' /\ Forall2 K ps ps' /\ Forall2 evolves ps ps')). revert H.
  apply foldM_inv with (P := fun w => P w /\ Forall2 K ps w /\ Forall2 evolves ps w).
  { split; auto. split; apply Forall2_same; [split; auto|apply evolves_refl]. }
  intros i w w' _ (Pw & Kw & Ew) H. unfold collision1 in H. binds H. apply vget_nat_inv in E.
  destruct (negb (is_type r Fluid)) eqn:T; [inv H; auto|]. apply negb_false_iff, is_type_eq in T.
  destruct (KN _ _ _ Kw E) as (p0 & Hp0 & T0 & N0). rewrite T in T0. rewrite N0 in H.
  revert H. apply foldM_inv with (P := fun w => P w /\ Forall2 K ps w /\ Forall2 evolves ps w); auto.
  intros nb u u' Hin (Pu & Ku & Eu) Hc.
  assert (FI : forall p, nth_error u i = Some p -> p_type p = Fluid).
  { intros p Hp. destruct (KN _ _ _ Ku Hp) as (p1 & Hp1 & T1 & _). rewrite Hp0 in Hp1. inv Hp1. congruence. }
  assert (L : List.length u' = List.length u).
  { apply collide_same_id in Hc. symmetry. eapply Forall2_length; eauto. }
  split; [|split].
  - pose proof Hc as Hc'. unfold collide in Hc'. binds Hc'. binds Hc'. apply vget_ok in E1. destruct E1 as [_ E1].
    destruct (KN _ _ _ Ku E1) as (q & Hq & _). eapply (HS u u' i nb); eauto.
    clear - Ku Eu. induction Ku as [|x y l l' [K1 K2] _ IH]; inv Eu; constructor; auto.
    destruct H2 as [(I1 & I2 & _ & _) I4]. repeat split; auto; apply I4; auto.
  - eapply KT; eauto. intros k p Hp. eapply collide_keeps_type; eauto.
  - eapply Forall2_trans; [apply evolves_trans|exact Eu|]. eapply collide_evolves; eauto. apply absorbs_zero_R.
Qed.

(** ** C12 *)
Lemma wsum_x (f : partR -> vecR) ps : vsum (map (fun p => along zeroR (p_dens p) (f p)) ps) =
  @mkV Rnum (rsum (map (fun p => p_dens p * vx (f p)) ps)) (rsum (map (fun p => p_dens p * vy (f p)) ps)) (rsum (map (fun p => p_dens p * vz (f p)) ps)).
Proof.
  unfold vsum. rewrite !map_map. f_equal; apply rsum_ext; intros; simpl; ring.
Qed.

(** what one effective pair does, both particles being Fluid *)
Lemma hit_balance (s : @settings Rnum) d (pi pj : partR) : 0 < p_dens pi -> 0 < p_dens pj -> p_type pi = Fluid -> p_type pj = Fluid ->
  forall c : vecR -> R, c = vx \/ c = vy \/ c = vz ->
  p_dens pi * c (p_vel (hit_i s d pi pj)) + p_dens pj * c (p_vel (hit_j s d pi pj)) = p_dens pi * c (p_vel pi) + p_dens pj * c (p_vel pj) /\
  p_dens pi * c (p_pos (hit_i s d pi pj)) + p_dens pj * c (p_pos (hit_j s d pi pj)) = p_dens pi * c (p_pos pi) + p_dens pj * c (p_pos pj).
Proof.
  intros Hi Hj Ti Tj c Hc. unfold hit_i, hit_j. generalize (pair_impulse s pi pj), (pair_push s d pi pj), (pair_normal pi pj). intros J D n. rewrite !inverseDensity_R. unfold inv_mass. rewrite Ti, Tj. simpl.
  destruct Hc as [->|[->| ->]]; simpl; split; field; lra.
Qed.

Lemma C12_lemma (s : @settings Rnum) (ps ps' : list partR) :
  dense ps ->
  (forall p q nb, In p ps -> p_type p = Fluid -> In nb (p_nbrs p) -> nb_dist nb < s_colDist s ->
     nth_error ps (Z.to_nat (nb_id nb)) = Some q -> p_type q = Fluid) ->
  collision s ps = Ok ps' -> momentum ps' = momentum ps /\ mass_centre ps' = mass_centre ps.
Proof.
  intros HD HF H.
  apply (collision_ind s (fun u => momentum u = momentum ps /\ mass_centre u = mass_centre ps) ps ps' H); [auto|].
  intros u u' i nb p q [HM HC] Hc St Hp Tp Hin Hq.
  assert (SU : forall k x x0, nth_error u k = Some x -> nth_error ps k = Some x0 -> still x0 x).
  { intros k x x0 Hx Hx0. destruct (Forall2_nth_r _ _ _ _ _ St Hx) as (x1 & Hx1 & S1). congruence. }
  assert (FI : forall x, nth_error u i = Some x -> p_type x = Fluid).
  { intros x Hx. destruct (SU _ _ _ Hx Hp). congruence. }
  destruct (collide_cases s i nb u u' Hc FI) as [->|(pi & pj & Hi & Hj & N & D & ->)]; auto.
  destruct (SU _ _ _ Hi Hp) as (T1 & _ & D1 & _). destruct (SU _ _ _ Hj Hq) as (T2 & _ & D2 & _).
  assert (Tq : p_type q = Fluid) by (eapply HF; eauto; eapply nth_error_In; eauto).
  assert (P1 : 0 < p_dens pi) by (rewrite D1; apply HD; auto; eapply nth_error_In; eauto).
  assert (P2 : 0 < p_dens pj) by (rewrite D2; apply HD; auto; eapply nth_error_In; eauto).
  assert (B := hit_balance s (nb_dist nb) pi pj P1 P2 ltac:(congruence) ltac:(congruence)).
  assert (DI : p_dens (hit_i s (nb_dist nb) pi pj) = p_dens pi) by reflexivity.
  assert (DJ : p_dens (hit_j s (nb_dist nb) pi pj) = p_dens pj) by reflexivity.
  destruct (B vx) as [Bx Cx]; auto. destruct (B vy) as [By Cy]; auto. destruct (B vz) as [Bz Cz]; auto.
  unfold momentum, mass_centre in *. rewrite !wsum_x in *. rewrite <- HM, <- HC.
  split; apply vec_eq; cbn [vx vy vz]; asR; erewrite rsum_upd2 by eauto; rewrite DI, DJ; lra.
Qed.

(** ** C13 *)
Lemma hit_energy_fluid (s : @settings Rnum) d (pi pj : partR) : 0 <= s_restitution s <= 1 -> 0 < p_dens pi -> 0 < p_dens pj ->
  p_type pi = Fluid -> p_type pj = Fluid ->
  p_dens pi * dotR (p_vel (hit_i s d pi pj)) (p_vel (hit_i s d pi pj)) + p_dens pj * dotR (p_vel (hit_j s d pi pj)) (p_vel (hit_j s d pi pj)) <=
  p_dens pi * dotR (p_vel pi) (p_vel pi) + p_dens pj * dotR (p_vel pj) (p_vel pj).
Proof.
  intros He Di Dj Ti Tj. unfold hit_i, hit_j. cbn [p_vel set_pos set_vel]. rewrite !inverseDensity_R. unfold inv_mass. rewrite Ti, Tj. simpl Z.eqb. cbv iota.
  set (n := pair_normal pi pj) in *. set (J := pair_impulse s pi pj).
  assert (NU := normal_unit_or_zero pi pj). fold n in NU. cbv zeta in NU.
  set (u := dotR (diffR (p_vel pj) (p_vel pi)) n).
  assert (HJ : J = if Rlt_bool u 0 then - (1 + s_restitution s) * u * / (/ p_dens pi + / p_dens pj) else 0).
  { unfold J, pair_impulse, pair_mass. rewrite !inverseDensity_R. unfold inv_mass. rewrite Ti, Tj. simpl. fold n.
    change (@vdot Rnum (@vsub Rnum (p_vel pj) (p_vel pi)) n) with u. unfold Rdiv. rewrite Rmult_1_l. reflexivity. }
  match goal with |- ?l <= ?r => assert (E : l = r + 2 * J * u + J * J * (/ p_dens pi + / p_dens pj) * dotR n n) end.
  { unfold u, dotR, diffR. simpl. field. lra. }
  rewrite E. clear E.
  assert (M : 0 < / p_dens pi + / p_dens pj) by (assert (A := Rinv_0_lt_compat _ Di); assert (B := Rinv_0_lt_compat _ Dj); lra).
  assert (K : 2 * J * u + J * J * (/ p_dens pi + / p_dens pj) * dotR n n <= 0); [|lra].
  rewrite HJ. destruct (Rlt_bool_spec u 0) as [Hu|Hu]; [|lra].
  destruct NU as [->|(N1 & N2 & N3)].
  - set (k := / p_dens pi + / p_dens pj) in *.
    replace (2 * (- (1 + s_restitution s) * u * / k) * u + - (1 + s_restitution s) * u * / k * (- (1 + s_restitution s) * u * / k) * k * 1)
      with (- ((1 + s_restitution s) * (1 - s_restitution s) * (u * u) * / k)) by (field; lra).
    assert (Q := Rinv_0_lt_compat _ M).
    assert (0 <= (1 + s_restitution s) * (1 - s_restitution s) * (u * u) * / k); [|lra].
    apply Rmult_le_pos; [apply Rmult_le_pos; [apply Rmult_le_pos; lra|nra]|lra].
  - exfalso. unfold u, dotR in Hu. rewrite N1, N2, N3 in Hu. lra.
Qed.

Lemma hit_energy_wall (s : @settings Rnum) d (pi pj : partR) : 0 <= s_restitution s <= 1 -> 0 < p_dens pi ->
  p_type pi = Fluid -> p_type pj <> Fluid -> p_vel pj = zeroR ->
  p_dens pi * dotR (p_vel (hit_i s d pi pj)) (p_vel (hit_i s d pi pj)) <= p_dens pi * dotR (p_vel pi) (p_vel pi).
Proof.
  intros He Di Ti Tj V. unfold hit_i. cbn [p_vel set_pos set_vel]. rewrite !inverseDensity_R. unfold inv_mass. rewrite Ti. simpl Z.eqb. cbv iota.
  set (n := pair_normal pi pj) in *. set (J := pair_impulse s pi pj).
  assert (NU := normal_unit_or_zero pi pj). fold n in NU. cbv zeta in NU.
  set (u := dotR (diffR (p_vel pj) (p_vel pi)) n).
  assert (HJ : J = if Rlt_bool u 0 then - (1 + s_restitution s) * u * p_dens pi else 0).
  { unfold J, pair_impulse, pair_mass. rewrite !inverseDensity_R. unfold inv_mass. rewrite Ti, (proj2 (Z.eqb_neq _ _) Tj). fold n.
    change (@vdot Rnum (@vsub Rnum (p_vel pj) (p_vel pi)) n) with u. simpl nlt. destruct (Rlt_bool u 0); auto. simpl. field. lra. }
  match goal with |- ?l <= ?r => assert (E : l = r + 2 * J * u + J * J * (/ p_dens pi) * dotR n n) end.
  { unfold u, dotR, diffR. rewrite V. simpl. field. lra. }
  rewrite E. clear E.
  assert (K : 2 * J * u + J * J * (/ p_dens pi) * dotR n n <= 0); [|lra].
  rewrite HJ. destruct (Rlt_bool_spec u 0) as [Hu|Hu]; [|lra].
  destruct NU as [->|(N1 & N2 & N3)].
  - replace (2 * (- (1 + s_restitution s) * u * p_dens pi) * u + - (1 + s_restitution s) * u * p_dens pi * (- (1 + s_restitution s) * u * p_dens pi) * / p_dens pi * 1)
      with (- ((1 + s_restitution s) * (1 - s_restitution s) * (u * u) * p_dens pi)) by (field; lra).
    assert (0 <= (1 + s_restitution s) * (1 - s_restitution s) * (u * u) * p_dens pi); [|lra].
    apply Rmult_le_pos; [apply Rmult_le_pos; [apply Rmult_le_pos; lra|nra]|lra].
  - exfalso. unfold u, dotR in Hu. rewrite N1, N2, N3 in Hu. lra.
Qed.

Lemma C13_lemma (s : @settings Rnum) (ps ps' : list partR) :
  0 <= s_restitution s <= 1 -> dense ps -> (forall p, In p ps -> p_type p <> Fluid -> p_vel p = zeroR) ->
  collision s ps = Ok ps' -> fluid_energy ps' <= fluid_energy ps.
Proof.
  intros He HD HV H.
  apply (collision_ind s (fun u => fluid_energy u <= fluid_energy ps) ps ps' H); [lra|].
  intros u u' i nb p q HM Hc St Hp Tp Hin Hq.
  assert (SU : forall k x x0, nth_error u k = Some x -> nth_error ps k = Some x0 -> still x0 x).
  { intros k x x0 Hx Hx0. destruct (Forall2_nth_r _ _ _ _ _ St Hx) as (x1 & Hx1 & S1). congruence. }
  assert (FI : forall x, nth_error u i = Some x -> p_type x = Fluid).
  { intros x Hx. destruct (SU _ _ _ Hx Hp). congruence. }
  destruct (collide_cases s i nb u u' Hc FI) as [->|(pi & pj & Hi & Hj & N & D & ->)]; auto.
  destruct (SU _ _ _ Hi Hp) as (T1 & _ & D1 & _). destruct (SU _ _ _ Hj Hq) as (T2 & _ & D2 & _ & V2).
  assert (P1 : 0 < p_dens pi) by (rewrite D1; apply HD; auto; eapply nth_error_In; eauto).
  assert (Fi : p_type pi = Fluid) by congruence.
  unfold fluid_energy in *. erewrite rsum_upd2 by eauto. eapply Rle_trans; [|exact HM].
  change (p_type (hit_i s (nb_dist nb) pi pj)) with (p_type pi). change (p_type (hit_j s (nb_dist nb) pi pj)) with (p_type pj).
  change (p_dens (hit_i s (nb_dist nb) pi pj)) with (p_dens pi). change (p_dens (hit_j s (nb_dist nb) pi pj)) with (p_dens pj).
  rewrite Fi. simpl (Fluid =? Fluid)%Z. cbv iota.
  destruct (Z.eqb_spec (p_type pj) Fluid) as [Fj|Fj].
  - assert (P2 : 0 < p_dens pj) by (rewrite D2; apply HD; [eapply nth_error_In; eauto|congruence]).
    assert (G := hit_energy_fluid s (nb_dist nb) pi pj He P1 P2 Fi Fj). lra.
  - assert (V : p_vel pj = zeroR). { rewrite (proj2 (V2 ltac:(congruence))). apply HV; [eapply nth_error_In; eauto|congruence]. }
    assert (G := hit_energy_wall s (nb_dist nb) pi pj He P1 Fi Fj V). lra.
Qed.

Lemma C14_still_lemma (s : @settings Rnum) (ps ps' : list partR) i p p' :
  collision s ps = Ok ps' -> nth_error ps i = Some p -> nth_error ps' i = Some p' -> p_type p <> Fluid ->
  p_pos p' = p_pos p /\ p_vel p' = p_vel p.
Proof.
  intros H Hp Hp' T. apply (collision_evolves absorbs_zero_R) in H. destruct (Forall2_nth_r _ _ _ _ _ H Hp') as (a & Ha & (_ & F)).
  rewrite Hp in Ha. inv Ha. destruct (F T); auto.
Qed.
