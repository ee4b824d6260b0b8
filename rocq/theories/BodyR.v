(** * Bodies that are not compressed (C78) *)
From Coq Require Import Reals Lra PeanoNat.
From Verif Require Import MotionR CollisionR SymStepR ViscosityR StepR WholeR SpecBody.
Open Scope R_scope.
#[local] Remove Hints F64 : typeclass_instances.

Lemma Forall2_at {A B} (Q : A -> B -> Prop) l l' : Forall2 Q l l' -> List.length l' = List.length l /\
  forall i p, nth_error l i = Some p -> exists p', nth_error l' i = Some p' /\ Q p p'.
Proof.
  induction 1 as [|x y l l' H _ [L IH]]; [split; [reflexivity|intros [|i] p K; discriminate K]|]. split; [simpl; now rewrite L|].
  intros [|i] p K; [injection K as <-; exists y; auto|exact (IH i p K)].
Qed.

Lemma active_dec d (p : partR) : {active d p} + {~ active d p}.
Proof.
  unfold active, in_box. destruct (Z.eq_dec (p_type p) Ghost) as [|N]; [right; tauto|].
  destruct (Rle_dec (xMin d) (vx (p_pos p))); [|right; tauto]. destruct (Rle_dec (vx (p_pos p)) (xMax d)); [|right; tauto].
  destruct (Rle_dec (yMin d) (vy (p_pos p))); [|right; tauto]. destruct (Rle_dec (vy (p_pos p)) (yMax d)); [|right; tauto].
  destruct (Rle_dec (zMin d) (vz (p_pos p))); [|right; tauto]. destruct (Rle_dec (vz (p_pos p)) (zMax d)); [|right; tauto].
  left. tauto.
Qed.
Lemma argmax_in (f : nat -> R) (B : nat -> bool) n : (exists i, (i < n)%nat /\ B i = true) -> exists i, (i < n)%nat /\ B i = true /\ forall j, (j < n)%nat -> B j = true -> f j <= f i.
Proof.
  induction n as [|n IH]; intros (i & Hi & Bi); [lia|]. destruct (B n) eqn:Bn.
  - destruct (existsb B (seq 0 n)) eqn:E.
    + apply existsb_exists in E as (k & Hk & Bk). apply in_seq in Hk. destruct IH as (m & Hm & Bm & M); [exists k; split; [lia|exact Bk]|].
      destruct (Rle_dec (f m) (f n)) as [C|C].
      * exists n. split; [lia|]. split; [exact Bn|]. intros j Hj Bj. destruct (Nat.eq_dec j n) as [->|]; [lra|]. specialize (M j ltac:(lia) Bj). lra.
      * exists m. split; [lia|]. split; [exact Bm|]. intros j Hj Bj. destruct (Nat.eq_dec j n) as [->|]; [lra|]. apply M; [lia|exact Bj].
    + exists n. split; [lia|]. split; [exact Bn|]. intros j Hj Bj. destruct (Nat.eq_dec j n) as [->|]; [lra|].
      assert (X : existsb B (seq 0 n) = true) by (apply existsb_exists; exists j; split; [apply in_seq; lia|exact Bj]). congruence.
  - assert (i <> n) by congruence. destruct IH as (m & Hm & Bm & M); [exists i; split; [lia|exact Bi]|]. exists m. split; [lia|]. split; [exact Bm|].
    intros j Hj Bj. assert (j <> n) by congruence. apply M; [lia|exact Bj].
Qed.

Section Body.
Variables (s : @settings Rnum) (ps0 : list partR) (K : partR -> bool).
Hypothesis DN : forall p, In p ps0 -> 0 < p_dens p.
Hypothesis FK : forall p, p_type p = Fluid -> K p = true.
Hypothesis US : 0 < s_reMax s /\ s_reN s <= s_reMax s /\ s_reG s <= s_reMax s /\ s_reL s <= s_reMax s.

(** the place of a particle when the fluid is displaced by D *)
Definition place (D : vecR) (p : partR) : vecR := if (p_type p =? Fluid)%Z then addR (p_pos p) D else p_pos p.
Definition gap (D : vecR) (p q : partR) : R := euclid (place D p) (place D q).
(** the current particles: the fluid is displaced by D and has velocity w *)
Definition ridden (D w : vecR) (ps : list partR) : Prop :=
  List.length ps = List.length ps0 /\
  forall i p, nth_error ps0 i = Some p -> exists p', nth_error ps i = Some p' /\ p_dens p' = p_dens p /\ p_pos p' = place D p /\
    (p_type p = Fluid -> p_type p' = Fluid /\ p_vel p' = w) /\
    (p_type p <> Fluid -> p_vel p' = p_vel p /\ (p_type p' = p_type p \/ p_type p' = Ghost)).
Record good (n0 : R) (D w : vecR) : Prop := mkGood {
  g_box : forall p, In p ps0 -> p_type p = Fluid -> in_box (s_domain s) (place D p);
  g_apart : forall i j p q, nth_error ps0 i = Some p -> nth_error ps0 j = Some q -> i <> j -> p_type p <> Ghost -> p_type q <> Ghost -> place D p <> place D q;
  g_far : forall p q, In p ps0 -> In q ps0 -> K p = true -> K q = false -> p_type q <> Ghost -> p_type q <> DummyWall -> s_reMax s <= gap D p q;
  g_still : forall p q, In p ps0 -> In q ps0 -> p_type p = Fluid -> p_type q <> Fluid -> p_type q <> Ghost -> s_reMax s <= gap D p q \/ p_vel q = w;
  g_clear : forall i j p q, nth_error ps0 i = Some p -> nth_error ps0 j = Some q -> i <> j -> p_type p = Fluid -> p_type q <> Ghost -> s_reMax s <= gap D p q \/ s_colDist s <= gap D p q;
  g_relaxed : forall i p, nth_error ps0 i = Some p -> K p = true -> sum_others ps0 i (fun _ q => w_spec (s_reN s) (gap D p q)) <= n0 }.

Lemma ridden_back D w ps i p' : ridden D w ps -> nth_error ps i = Some p' -> exists p, nth_error ps0 i = Some p /\ p_dens p' = p_dens p /\ p_pos p' = place D p /\
    (p_type p = Fluid -> p_type p' = Fluid /\ p_vel p' = w) /\ (p_type p <> Fluid -> p_vel p' = p_vel p /\ (p_type p' = p_type p \/ p_type p' = Ghost)).
Proof.
  intros [L H] Hp. destruct (nth_error ps0 i) as [p|] eqn:E.
  - destruct (H i p E) as (p2 & Hp2 & R). rewrite Hp in Hp2. injection Hp2 as <-. exists p. auto.
  - apply nth_error_None in E. assert (nth_error ps i <> None) by congruence. apply nth_error_Some in H0. lia.
Qed.
Lemma fluid_back (p p' : partR) (w : vecR) : (p_type p <> Fluid -> p_vel p' = p_vel p /\ (p_type p' = p_type p \/ p_type p' = Ghost)) -> p_type p' = Fluid -> p_type p = Fluid.
Proof. intros H T. destruct (Z.eq_dec (p_type p) Fluid) as [|N]; [assumption|]. destruct (H N) as (_ & [E|E]); [congruence|rewrite E in T; discriminate]. Qed.
Lemma live_back (p p' : partR) (w : vecR) : (p_type p = Fluid -> p_type p' = Fluid /\ p_vel p' = w) -> (p_type p <> Fluid -> p_vel p' = p_vel p /\ (p_type p' = p_type p \/ p_type p' = Ghost)) ->
  p_type p' <> Ghost -> p_type p' = p_type p.
Proof. intros A B T. destruct (Z.eq_dec (p_type p) Fluid) as [E|N]; [rewrite E; now apply A|]. destruct (B N) as (_ & [E|E]); [exact E|contradiction]. Qed.

Lemma place_fluid D p : p_type p = Fluid -> place D p = addR (p_pos p) D.
Proof. intros T. unfold place. now rewrite T. Qed.
Lemma place_other D p : p_type p <> Fluid -> place D p = p_pos p.
Proof. intros T. unfold place. destruct (Z.eqb_spec (p_type p) Fluid); [contradiction|reflexivity]. Qed.

Lemma swept_ridden n0 D w ps ps' : good n0 D w -> ridden D w ps -> swept (s_domain s) ps ps' -> ridden D w ps'.
Proof.
  intros G [L H] SW. destruct (Forall2_at _ _ _ SW) as [L2 H2]. split; [congruence|]. intros i p Hp. destruct (H i p Hp) as (p1 & Hp1 & E1 & E2 & E3 & E4).
  destruct (H2 i p1 Hp1) as (p2 & Hp2 & (t & l & ->) & A & B). exists (set_nbrs (set_type p1 t) l). split; [exact Hp2|]. cbn in *. split; [exact E1|]. split; [exact E2|]. split; intros T.
  - destruct (E3 T) as [T1 V1]. split; [|exact V1]. rewrite A; [exact T1|]. split; [rewrite T1; discriminate|]. rewrite E2. apply (g_box _ _ _ G p); [eapply nth_error_In; eassumption|exact T].
  - destruct (E4 T) as [V1 T1]. split; [exact V1|]. destruct (Z.eq_dec t Ghost) as [|NG]; [now right|]. 
    destruct (active_dec (s_domain s) p1) as [AC|AC]; [rewrite A by exact AC; exact T1|right; now apply B].
Qed.
Lemma ridden_apart n0 D w ps : good n0 D w -> ridden D w ps -> apart ps.
Proof.
  intros G R i j p q Hp Hq N Tp Tq. destruct (ridden_back _ _ _ _ _ R Hp) as (p0 & Hp0 & _ & -> & A1 & A2). destruct (ridden_back _ _ _ _ _ R Hq) as (q0 & Hq0 & _ & -> & B1 & B2).
  apply (g_apart _ _ _ G i j p0 q0); auto; rewrite <- (live_back _ _ _ A1 A2) || rewrite <- (live_back _ _ _ B1 B2); assumption.
Qed.
Lemma w_far re d : re <= d -> w_spec re d = 0.
Proof. intros H. unfold w_spec. destruct (Rlt_dec d re); [lra|reflexivity]. Qed.
Lemma sum_others_0 ps i f : (forall j q, nth_error ps j = Some q -> j <> i -> p_type q <> Ghost -> f j q = 0) -> sum_others ps i f = 0.
Proof.
  intros H. rewrite (sum_others_ext ps i f (fun _ _ => 0 * 0)) by (intros; rewrite H by assumption; ring). rewrite (sum_others_mul ps i 0 (fun _ _ => 0)). ring.
Qed.
Lemma sumv_0 ps i f : (forall j q, nth_error ps j = Some q -> j <> i -> p_type q <> Ghost -> f j q = zeroR) -> sumv ps i f = zeroR.
Proof. intros H. unfold sumv, zeroR. f_equal; apply sum_others_0; intros j q A B C; now rewrite (H j q A B C). Qed.
Lemma vec_eq (a b : vecR) : vx a = vx b -> vy a = vy b -> vz a = vz b -> a = b.
Proof. destruct a, b; simpl; intros; subst; reflexivity. Qed.

Lemma shear_0 n0 D w ps i p : good n0 D w -> ridden D w ps -> nth_error ps i = Some p -> p_type p = Fluid -> shear (s_reL s) ps i p = zeroR.
Proof.
  intros G R Hp T. apply sumv_0. intros j q Hq N Tq. destruct (ridden_back _ _ _ _ _ R Hp) as (p0 & Hp0 & _ & Ep & A1 & A2). destruct (ridden_back _ _ _ _ _ R Hq) as (q0 & Hq0 & _ & Eq & B1 & B2).
  pose proof (fluid_back _ _ w A2 T) as T0. destruct (A1 T0) as [_ Vp]. pose proof (live_back _ _ _ B1 B2 Tq) as TQ.
  destruct (Z.eq_dec (p_type q0) Fluid) as [F|F].
  - destruct (B1 F) as [_ Vq]. rewrite Vp, Vq. apply vec_eq; cbn; ring.
  - destruct (g_still _ _ _ G p0 q0 (nth_error_In _ _ Hp0) (nth_error_In _ _ Hq0) T0 F ltac:(congruence)) as [X|X].
    + rewrite Ep, Eq. fold (gap D p0 q0). rewrite w_far by lra. apply vec_eq; cbn; ring.
    + destruct (B2 F) as [Vq _]. rewrite Vp, Vq, X. apply vec_eq; cbn; ring.
Qed.

Lemma predicted_ridden n0 D w ps ps' g a b : good n0 D w -> ridden D w ps -> predicted s g a b ps ps' ->
  let w' := addR w (scaleR (s_dt s) g) in ridden (addR D (scaleR (s_dt s) w')) w' ps'.
Proof.
  intros G R [L H] w'. split; [destruct R; congruence|]. intros i p0 Hp0. destruct (proj2 R i p0 Hp0) as (p & Hp & E1 & E2 & E3 & E4).
  destruct (H i p Hp) as (p' & Hp' & T' & D' & NF & F). exists p'. split; [exact Hp'|]. split; [congruence|].
  destruct (Z.eq_dec (p_type p0) Fluid) as [T0|T0].
  - destruct (E3 T0) as [T V]. destruct (F T) as [V' P']. rewrite (shear_0 n0 D w ps i p G R Hp T) in V'.
    assert (VW : p_vel p' = w'). { rewrite V', V. unfold w'. apply vec_eq; cbn; ring. }
    split; [|split; [intros _; split; [congruence|exact VW]|contradiction]].
    rewrite P', VW, E2, !place_fluid by exact T0. apply vec_eq; cbn; ring.
  - destruct (E4 T0) as [V T]. assert (NF' : p_type p <> Fluid) by (destruct T as [T|T]; rewrite T; [exact T0|discriminate]). destruct (NF NF') as [V' P'].
    split; [rewrite P', E2, !place_other by exact T0; reflexivity|]. split; [contradiction|]. intros _. split; [congruence|]. rewrite T'. exact T.
Qed.

Lemma collided_ridden n0 D w ps ps' : good n0 D w -> ridden D w ps -> collided s ps ps' -> ps' = ps.
Proof.
  intros G R (tr & _ & IN & BU). destruct tr as [|[i j] tr]; [exact BU|]. exfalso.
  destruct (proj1 (IN i j) (or_introl eq_refl)) as (p & q & Hp & Hq & N & Tp & Tq & _ & D1 & D2).
  destruct (ridden_back _ _ _ _ _ R Hp) as (p0 & Hp0 & _ & Ep & A1 & A2). destruct (ridden_back _ _ _ _ _ R Hq) as (q0 & Hq0 & _ & Eq & B1 & B2).
  rewrite Ep, Eq in D1, D2. pose proof (live_back _ _ _ B1 B2 Tq) as TQ.
  destruct (g_clear _ _ _ G i j p0 q0 Hp0 Hq0 N (fluid_back _ _ w A2 Tp) ltac:(congruence)) as [X|X]; unfold gap in X; lra.
Qed.

Lemma counted_ridden n0 D w ps ps' : good n0 D w -> ridden D w ps -> counted (s_reN s) ps ps' -> ridden D w ps' /\
  forall i p p0, nth_error ps' i = Some p -> nth_error ps0 i = Some p0 -> K p0 = true -> p_type p <> Ghost -> p_nd p <= n0.
Proof.
  intros G R [L H]. split.
  - split; [destruct R; congruence|]. intros i p0 Hp0. destruct (proj2 R i p0 Hp0) as (p & Hp & E1 & E2 & E3 & E4). destruct (H i p Hp) as (p' & Hp' & T' & D' & V' & P' & _).
    exists p'. split; [exact Hp'|]. split; [congruence|]. split; [congruence|]. split; intros T; [destruct (E3 T)|destruct (E4 T)]; (split; [congruence|]); [congruence|now rewrite T'].
  - intros i p' p0 Hp' Hp0 Kp NG. destruct (proj2 R i p0 Hp0) as (p & Hp & E1 & E2 & E3 & E4). destruct (H i p Hp) as (p2 & Hp2 & T' & D' & V' & P' & _ & ND). rewrite Hp' in Hp2. injection Hp2 as <-.
    rewrite ND by congruence. apply Rle_trans with (2 := g_relaxed _ _ _ G i p0 Hp0 Kp).
    unfold sum_others. rewrite (proj1 R). apply rsum_le. intros j Hj. apply in_seq in Hj. destruct (nth_error ps0 j) as [q0|] eqn:Hq0; [|apply nth_error_None in Hq0; lia].
    destruct (proj2 R j q0 Hq0) as (q & Hq & _ & Eq & B1 & B2). rewrite Hq. destruct (Nat.eqb_spec j i) as [->|N]; cbn [orb]; [lra|].
    rewrite E2, Eq. fold (gap D p0 q0). destruct (Z.eqb_spec (p_type q0) Ghost) as [T0|T0].
    + assert (TQ : p_type q = Ghost). { destruct B2 as [_ [B|B]]; [rewrite T0; discriminate|congruence|exact B]. } rewrite TQ. cbn. lra.
    + assert (T00 : p_type p0 <> Ghost). { pose proof (live_back _ _ _ E3 E4 ltac:(congruence)). congruence. }
      assert (0 <= w_spec (s_reN s) (gap D p0 q0)) by (apply w_spec_nonneg, euclid_pos, (g_apart _ _ _ G i j p0 q0); auto). destruct (Z.eqb_spec (p_type q) Ghost); lra.
Qed.

(** nothing that belongs to the body has pressure *)
Lemma pressed_ridden (k : @calculator Rnum) D w ps : regular k (s_reMax s) -> good (nominal k) D w -> ridden D w ps ->
  (forall i p p0, nth_error ps i = Some p -> nth_error ps0 i = Some p0 -> K p0 = true -> p_type p <> Ghost -> p_nd p <= nominal k) ->
  pressed k (s_reMax s) ps -> forall i p p0, nth_error ps i = Some p -> nth_error ps0 i = Some p0 -> K p0 = true -> p_press p = 0.
Proof.
  intros RG G R ND PR. destruct k as [det q|n0 c]; cbn [nominal pressed] in *.
  - destruct RG as ((RL & N0 & L0 & LA & DT) & CO & GA & DI). destruct PR as (x & X).
    assert (NP : forall i p p0, nth_error ps i = Some p -> nth_error ps0 i = Some p0 -> K p0 = true -> x i <= 0).
    2:{ intros i p p0 Hp Hp0 Kp. destruct (X i p Hp) as [E _]. rewrite E. apply Rmax_left. exact (NP i p p0 Hp Hp0 Kp). }
    intros i0 p0 p00 Hp0 Hp00 Kp0.
    set (B := fun i => match nth_error ps0 i with Some r => K r | None => false end).
    destruct (argmax_in x B (List.length ps)) as (i & Hi & Bi & M).
    { exists i0. split; [apply nth_error_Some; congruence|]. unfold B. now rewrite Hp00. }
    apply Rle_trans with (x i). { apply M; [apply nth_error_Some; congruence|]. unfold B. now rewrite Hp00. }
    destruct (Rle_dec (x i) 0) as [|NX]; [assumption|]. exfalso. apply Rnot_le_lt in NX.
    destruct (nth_error ps i) as [p|] eqn:Hp; [|apply nth_error_None in Hp; lia]. unfold B in Bi. destruct (nth_error ps0 i) as [pi|] eqn:Hpi; [|discriminate].
    destruct (X i p Hp) as (_ & OFF & INN).
    set (inner := p_type p <> Ghost /\ p_type p <> DummyWall /\ ~ surface det (s_reMax s) ps i p) in *.
    assert (IC : ~ ~ inner) by (intros C; rewrite (OFF C) in NX; lra).
    apply IC. intros IN. clear IC. specialize (INN IN). destruct IN as (TG & TD & _).
    destruct (ridden_back _ _ _ _ _ R Hp) as (pi' & Hpi' & E1 & E2 & E3 & E4). rewrite Hpi in Hpi'. injection Hpi' as <-. pose proof (live_back _ _ _ E3 E4 TG) as TP.
    assert (DP : 0 < p_dens p) by (rewrite E1; apply DN; eapply nth_error_In; eassumption).
    match type of INN with ?s1 + ?c1 = ?r1 => assert (S1 : 0 <= s1); [|assert (C1 : 0 < c1); [|assert (R1 : r1 <= 0); [|lra]]] end.
    + apply Rle_trans with (sum_others ps i (fun _ _ => 0)); [right; symmetry; now apply sum_others_0|]. apply sum_others_le. intros j r Hr N Tr.
      destruct (ridden_back _ _ _ _ _ R Hr) as (r0 & Hr0 & F1 & F2 & F3 & F4). pose proof (live_back _ _ _ F3 F4 Tr) as TR.
      destruct (Z.eqb_spec (p_type r) DummyWall) as [|ND2]; [lra|]. rewrite E2, F2. fold (gap D pi r0).
      destruct (K r0) eqn:KR.
      * assert (0 <= w_spec (q_reL q) (gap D pi r0)) by (apply w_spec_nonneg, euclid_pos, (g_apart _ _ _ G i j pi r0); auto; congruence).
        assert (x j <= x i). { apply M; [apply nth_error_Some; congruence|]. unfold B. now rewrite Hr0. }
        apply Rmult_le_pos; [|lra]. apply Rmult_le_pos; [|left; now apply Rinv_0_lt_compat]. apply Rmult_le_pos; [|assumption].
        apply Rmult_le_pos; [|left; apply Rinv_0_lt_compat; nra]. apply IZR_le in DI. lra.
      * rewrite w_far; [unfold Rdiv; rewrite Rmult_0_r, !Rmult_0_l; lra|]. apply Rle_trans with (s_reMax s); [exact RL|].
        apply (g_far _ _ _ G pi r0); auto; try (eapply nth_error_In; eassumption); congruence.
    + apply Rmult_lt_0_compat; [|assumption]. apply Rdiv_lt_0_compat; [assumption|]. assert (0 < q_dt q ^ 2) by (destruct (Rdichotomy _ _ DT); nra). assumption.
    + assert (0 < q_dt q ^ 2) by (destruct (Rdichotomy _ _ DT); nra).
      assert (0 <= q_gamma q / q_dt q ^ 2) by (apply Rmult_le_pos; [assumption|left; now apply Rinv_0_lt_compat]).
      assert (p_nd p <= q_n0N q) by (eapply ND; eauto).
      assert ((p_nd p - q_n0N q) / q_n0N q <= 0). { unfold Rdiv. assert (0 < / q_n0N q) by now apply Rinv_0_lt_compat. nra. }
      nra.
  - intros i p p0 Hp Hp0 Kp. rewrite (PR p) by (eapply nth_error_In; eassumption). destruct (Z.eqb_spec (p_type p) Ghost) as [|TG]; [reflexivity|].
    apply Rmax_left. destruct (ridden_back _ _ _ _ _ R Hp) as (pi' & Hpi' & E1 & _). rewrite Hp0 in Hpi'. injection Hpi' as <-.
    assert (0 < p_dens p) by (rewrite E1; apply DN; eapply nth_error_In; eassumption). assert (p_nd p <= n0) by (eapply ND; eauto). destruct RG as [N0 _]. cbn in N0.
    assert ((p_nd p - n0) / n0 <= 0). { unfold Rdiv. assert (0 < / n0) by now apply Rinv_0_lt_compat. nra. }
    assert (0 <= c ^ 2 * p_dens p) by nra. nra.
Qed.

Lemma corrected_ridden n0 n1 D w ps ps' : good n0 D w -> ridden D w ps -> corrected s n1 ps ps' ->
  (forall i p p0, nth_error ps i = Some p -> nth_error ps0 i = Some p0 -> K p0 = true -> p_press p = 0) ->
  ridden D w ps' /\ forall i p p0, nth_error ps' i = Some p -> nth_error ps0 i = Some p0 -> K p0 = true -> p_press p = 0.
Proof.
  intros G R [L H] Z. split; [split; [destruct R; congruence|]|].
  - intros i p0 Hp0. destruct (proj2 R i p0 Hp0) as (p & Hp & E1 & E2 & E3 & E4). destruct (H i p Hp) as (p' & Hp' & T' & D' & _ & _ & NF & F). exists p'. split; [exact Hp'|]. split; [congruence|].
    destruct (Z.eq_dec (p_type p0) Fluid) as [T0|T0].
    + destruct (E3 T0) as [T V]. destruct (F T) as (mn & (M1 & M2 & M3) & V' & P').
      assert (PP : p_press p = 0) by (apply (Z i p p0); auto).
      assert (QQ : forall j q, nth_error ps j = Some q -> j <> i -> p_type q <> Ghost -> p_type q <> DummyWall -> euclid (p_pos p) (p_pos q) < s_reG s -> p_press q = 0).
      { intros j q Hq N TG TD DD. destruct (ridden_back _ _ _ _ _ R Hq) as (q0 & Hq0 & F1 & F2 & F3 & F4). pose proof (live_back _ _ _ F3 F4 TG) as TQ.
        destruct (K q0) eqn:KQ; [now apply (Z j q q0)|]. exfalso. rewrite E2, F2 in DD. fold (gap D p0 q0) in DD.
        assert (s_reMax s <= gap D p0 q0) by (apply (g_far _ _ _ G p0 q0); auto; try (eapply nth_error_In; eassumption); congruence). lra. }
      assert (MN : mn = 0). { destruct M3 as [M3|(j & q & (Hq & N & TG & TD & DD) & ->)]; [congruence|now apply (QQ j q)]. }
      assert (FZ : pressure_force (s_dim s) n1 (s_reG s) mn ps i p = zeroR).
      { unfold pressure_force. rewrite sumv_0; [apply vec_eq; cbn; ring|]. intros j q Hq N TG. destruct (Z.eqb_spec (p_type q) DummyWall) as [|TD]; [reflexivity|].
        destruct (Rlt_dec (euclid (p_pos p) (p_pos q)) (s_reG s)) as [DD|DD].
        - rewrite (QQ j q) by assumption. rewrite MN. unfold Rdiv. rewrite Rminus_0_r, !Rmult_0_l. apply vec_eq; cbn; ring.
        - rewrite w_far by lra. unfold Rdiv. rewrite Rmult_0_r, Rmult_0_l. apply vec_eq; cbn; ring. }
      cbv zeta in V', P'. rewrite FZ in V', P'. split; [rewrite P', E2; apply vec_eq; cbn; ring|]. split; [intros _|contradiction]. split; [congruence|].
      rewrite V', V. apply vec_eq; cbn; ring.
    + destruct (E4 T0) as [V T]. assert (NF' : p_type p <> Fluid) by (destruct T as [T|T]; rewrite T; [exact T0|discriminate]). destruct (NF NF') as [V' P'].
      split; [congruence|]. split; [contradiction|]. intros _. split; [congruence|]. rewrite T'. exact T.
  - intros i p' p0 Hp' Hp0 Kp. destruct (proj2 R i p0 Hp0) as (p & Hp & _). destruct (H i p Hp) as (p2 & Hp2 & _ & _ & PR & _). rewrite Hp' in Hp2. injection Hp2 as <-.
    rewrite PR. now apply (Z i p p0).
Qed.
End Body.

(** one step *)
Lemma body_step (S : @solver Rnum) (m m' : @mps Rnum) (ps0 : list partR) K D w : ready m -> exact_solver S -> regular (m_calc m) (s_reMax (m_settings m)) ->
  (forall p, In p ps0 -> 0 < p_dens p) -> (forall p, p_type p = Fluid -> K p = true) -> stepForward S m = Ok m' ->
  let s := m_settings m in let w' := addR w (scaleR (s_dt s) (m_gravity m)) in let D' := addR D (scaleR (s_dt s) w') in
  good s ps0 K (nominal (m_calc m)) D w -> good s ps0 K (nominal (m_calc m)) D' w' -> ridden ps0 D w (m_ps m) ->
  ridden ps0 D' w' (m_ps m') /\ forall i p p0, nth_error (m_ps m') i = Some p -> nth_error ps0 i = Some p0 -> K p0 = true -> p_press p = 0.
Proof.
  intros RD EX RG DN FK ST s w' D' G G' R.
  assert (US : 0 < s_reMax s /\ s_reN s <= s_reMax s /\ s_reG s <= s_reMax s /\ s_reL s <= s_reMax s).
  { split; [exact (ready_reMax m RD)|]. destruct RD as (_ & (_ & _ & _ & A & B & C) & _). fold s in A, B, C. lra. }
  assert (DM : forall p, In p (m_ps m) -> 0 < p_dens p).
  { intros p Hp. apply In_nth_error in Hp as (i & Hp). destruct (ridden_back _ _ _ _ _ _ R Hp) as (p0 & Hp0 & E & _). rewrite E. apply DN. eapply nth_error_In; eassumption. }
  destruct (C53_lemma S m m' RD EX (proj1 RG) DM ST) as (a & b & b1 & c & c1 & e & SA & PB & SB & CC & SC & REST). fold s in SA, PB, SB, CC, SC, REST.
  pose proof (swept_ridden s ps0 K _ _ _ _ _ G R SA) as Ra.
  specialize (PB (ridden_apart s ps0 K _ _ _ _ G Ra)).
  pose proof (predicted_ridden s ps0 K US _ _ _ _ _ _ _ _ G Ra PB) as Rb. cbv zeta in Rb. fold w' in Rb. fold D' in Rb.
  pose proof (swept_ridden s ps0 K _ _ _ _ _ G' Rb SB) as Rb1.
  pose proof (collided_ridden s ps0 K _ _ _ _ _ G' Rb1 CC) as Ec. subst c.
  pose proof (swept_ridden s ps0 K _ _ _ _ _ G' Rb1 SC) as Rc1.
  destruct (REST (ridden_apart s ps0 K _ _ _ _ G' Rc1)) as (CO & PR & COR).
  destruct (counted_ridden s ps0 K _ _ _ _ _ G' Rc1 CO) as [Re ND].
  pose proof (pressed_ridden s ps0 K DN _ _ _ _ RG G' Re ND PR) as Z.
  exact (corrected_ridden s ps0 K FK US _ _ _ _ _ _ G' Re COR Z).
Qed.
