(** * Collisions of separate pairs do not depend on their order (C69) *)
From Coq Require Import Reals Lra Psatz PeanoNat.
From Verif Require Export SymR.
Open Scope R_scope.
#[local] Remove Hints F64 : typeclass_instances.

(** what a collision makes of p when it meets q *)
Definition share (p q : partR) : R := if (p_type q =? Fluid)%Z then p_dens q / (p_dens p + p_dens q) else 1.
Definition hit_vel (e : R) (p q : partR) : vecR :=
  let n := unitR (p_pos p) (p_pos q) in
  let w := dotR (diffR (p_vel q) (p_vel p)) n in
  if Rlt_dec w 0 then along (p_vel p) ((1 + e) * w * share p q) n else p_vel p.
Definition hit_pos (k : R) (p q : partR) : vecR :=
  along (p_pos p) (- ((k - euclid (p_pos p) (p_pos q)) * share p q)) (unitR (p_pos p) (p_pos q)).
Definition struck (e k : R) (p q p' : partR) : Prop :=
  p_type p' = p_type p /\ p_dens p' = p_dens p /\
  (p_pos p = p_pos q -> p_vel p' = p_vel p /\ p_pos p' = p_pos p) /\
  (p_pos p <> p_pos q -> p_vel p' = hit_vel e p q /\ p_pos p' = hit_pos k p q).

Lemma unit_opp x y : x <> y -> unitR y x = scaleR (-1) (unitR x y).
Proof. intros H. unfold unitR, along, diffR, scaleR, zeroR. rewrite (euclid_sym y x). cbn [vx vy vz]. f_equal; ring. Qed.
Lemma unit_one x y : x <> y -> dotR (unitR x y) (unitR x y) = 1.
Proof.
  intros H. assert (P := euclid_pos x y H). assert (Q : dotR (diffR y x) (diffR y x) = euclid x y * euclid x y).
  { rewrite euclid_sym, euclid_dot, sqrt_sqrt; [reflexivity|]. destruct (diffR y x) as [a b c]. unfold dotR. cbn [vx vy vz]. change (@num Rnum) with R in *. nra. }
  unfold unitR, along, dotR, zeroR. cbn [vx vy vz]. unfold dotR in Q. apply Rmult_eq_reg_r with (euclid x y * euclid x y); [|nra]. rewrite Rmult_1_l. rewrite <- Q at 2. field. lra.
Qed.
Lemma dot_along a k n b : dotR (along a k n) b = dotR a b + k * dotR n b.
Proof. unfold dotR, along. cbn [vx vy vz]. ring. Qed.
Lemma dot_diff a b c : dotR (diffR a b) c = dotR a c - dotR b c.
Proof. unfold dotR, diffR. cbn [vx vy vz]. ring. Qed.
Lemma along_0 a n : along a 0 n = a.
Proof. destruct a as [a1 a2 a3]. unfold along. cbn [vx vy vz]. f_equal; ring. Qed.

(** a collision of p (Fluid) with q, both not yet touched *)
Lemma bumped_struck e k i j (u u' : list partR) p q d : bumped e k d i j u u' -> nth_error u i = Some p -> nth_error u j = Some q -> i <> j ->
  d = euclid (p_pos p) (p_pos q) -> p_type p = Fluid -> 0 < p_dens p -> 0 < p_dens q ->
  List.length u' = List.length u /\ (forall x, x <> i -> x <> j -> nth_error u' x = nth_error u x) /\
  (exists p', nth_error u' i = Some p' /\ struck e k p q p') /\
  (p_type q = Fluid -> exists q', nth_error u' j = Some q' /\ struck e k q p q') /\
  (p_type q <> Fluid -> nth_error u' j = Some q).
Proof.
  intros (p0 & q0 & P & Q & SM & DF) Hp Hq N Ed Tp Dp Dq. rewrite Hp in P. injection P as P. subst p0. rewrite Hq in Q. injection Q as Q. subst q0.
  destruct (Req_dec (euclid (p_pos p) (p_pos q)) 0) as [E0|E0].
  - apply euclid_0 in E0. rewrite (SM E0). split; [reflexivity|]. split; [reflexivity|].
    split; [exists p; split; [exact Hp|]; split; [reflexivity|]; split; [reflexivity|]; split; [auto|intros X; contradiction]|]. split; [|auto]. intros _. exists q. split; [exact Hq|]. split; [reflexivity|]. split; [reflexivity|]. split; [auto|intros X; symmetry in E0; contradiction].
  - assert (NE : p_pos p <> p_pos q) by (intros X; apply E0; rewrite X; apply euclid_same).
    destruct (DF NE) as (vp & vq & a & b & al & be & -> & -> & -> & H1 & H2 & H3 & H4 & A0 & B0 & AB & H5 & H6). clear DF SM.
    set (n := unitR (p_pos p) (p_pos q)) in *. assert (U1 : dotR n n = 1) by now apply unit_one.
    set (w := dotR (diffR (p_vel q) (p_vel p)) n) in *.
    assert (W : dotR (diffR (along (p_vel q) b n) (along (p_vel p) a n)) n = w + b - a).
    { unfold w. rewrite !dot_diff, !dot_along, U1. ring. }
    rewrite W in H1.
    assert (Li : (i < List.length u)%nat) by (apply nth_error_Some; congruence). assert (Lj : (j < List.length u)%nat) by (apply nth_error_Some; congruence).
    split; [now rewrite !length_upd|]. split; [intros x X1 X2; rewrite !nth_upd_other by auto; reflexivity|].
    assert (SA : a = if Rlt_dec w 0 then (1 + e) * w * share p q else 0).
    { unfold share. destruct (Rlt_dec w 0) as [W0|W0]; [specialize (H1 W0)|apply H2; lra]. destruct (Z.eqb_spec (p_type q) Fluid) as [F|F].
      - specialize (H3 F). assert (b = - (1 + e) * w + a) by lra. subst b. apply Rmult_eq_reg_r with (p_dens p + p_dens q); [|lra].
        transitivity ((1 + e) * w * p_dens q); [lra|field; lra].
      - specialize (H4 F). lra. }
    assert (SB : al = (k - d) * share p q).
    { unfold share. destruct (Z.eqb_spec (p_type q) Fluid) as [F|F].
      - specialize (H5 F). assert (be = k - d - al) by lra. subst be. apply Rmult_eq_reg_r with (p_dens p + p_dens q); [|lra].
        transitivity ((k - d) * p_dens q); [lra|field; lra].
      - specialize (H6 F). lra. }

    split; [|split].
    + eexists. split; [rewrite nth_upd_other by auto; now rewrite nth_upd_same|]. split; [reflexivity|]. split; [reflexivity|]. split; [contradiction|]. intros _. cbn [p_vel p_pos set_pos set_vel]. split.
      * unfold hit_vel. fold n. fold w. rewrite SA. destruct (Rlt_dec w 0); [reflexivity|apply along_0].
      * unfold hit_pos. fold n. now rewrite SB, Ed.
    + intros F. eexists. split; [rewrite nth_upd_same; [reflexivity|now rewrite length_upd]|]. split; [reflexivity|]. split; [reflexivity|]. split; [intros X; symmetry in X; contradiction|]. intros _. cbn [p_vel p_pos set_pos set_vel].
      assert (UO : unitR (p_pos q) (p_pos p) = scaleR (-1) n) by now apply unit_opp.
      assert (W' : dotR (diffR (p_vel p) (p_vel q)) (scaleR (-1) n) = w). { unfold w, dotR, diffR, scaleR. cbn [vx vy vz]. ring. }
      assert (SH : share q p = p_dens p / (p_dens p + p_dens q)). { unfold share. rewrite Tp. cbn. f_equal. ring. }
      assert (SP : share p q = p_dens q / (p_dens p + p_dens q)). { unfold share. rewrite F. reflexivity. }
      specialize (H3 F). specialize (H5 F). rewrite SP in SA, SB. split.
      * unfold hit_vel. rewrite UO, W', SH. assert (B : b = - (p_dens p * a / p_dens q)). { apply Rmult_eq_reg_r with (p_dens q); [|lra]. transitivity (- (p_dens p * a)); [lra|field; lra]. }
        rewrite B, SA. destruct (Rlt_dec w 0).
        -- unfold along, scaleR. cbn [vx vy vz]. f_equal; field; lra.
        -- replace (- (p_dens p * 0 / p_dens q)) with 0 by (field; lra). apply along_0.
      * unfold hit_pos. rewrite UO, SH, (euclid_sym (p_pos q)), <- Ed. assert (B : be = p_dens p * al / p_dens q). { apply Rmult_eq_reg_r with (p_dens q); [|lra]. transitivity (p_dens p * al); [lra|field; lra]. }
        rewrite B, SB. unfold along, scaleR. cbn [vx vy vz]. f_equal; field; lra.
    + intros F. rewrite nth_upd_same by (now rewrite length_upd). rewrite (H6 F), (H4 F), !along_0. now destruct q.
Qed.

Definition touch (tr : list (nat * nat)) (x y : nat) : Prop := In (x, y) tr \/ In (y, x) tr.
Local Notation unordered := (map (fun e : nat * nat => (Nat.min (fst e) (snd e), Nat.max (fst e) (snd e)))).
Lemma touch_unordered tr x y : touch tr x y -> In (Nat.min x y, Nat.max x y) (unordered tr).
Proof.
  intros [H|H].
  - apply (in_map (fun e : nat * nat => (Nat.min (fst e) (snd e), Nat.max (fst e) (snd e))) _ _ H).
  - rewrite Nat.min_comm, Nat.max_comm. apply (in_map (fun e : nat * nat => (Nat.min (fst e) (snd e), Nat.max (fst e) (snd e))) _ _ H).
Qed.
Lemma contact_sym s ps i j : contact s ps i j -> (forall q, nth_error ps j = Some q -> p_type q = Fluid) -> contact s ps j i.
Proof.
  intros (p & q & P & Q & N & T1 & T2 & D1 & D2) F. exists q, p. rewrite (euclid_sym (p_pos q)). repeat split; auto. rewrite T1. discriminate.
Qed.
Lemma bumps_each s (ps : list partR) : (forall i p, nth_error ps i = Some p -> p_type p <> Ghost -> 0 < p_dens p) ->
  (forall i j k, contact s ps i j -> contact s ps i k -> j = k) ->
  forall tr u u', NoDup (unordered tr) -> (forall i j, In (i, j) tr -> contact s ps i j) ->
  List.length u = List.length ps -> (forall x y, touch tr x y -> nth_error u x = nth_error ps x) ->
  bumps (s_restitution s) (s_colDist s) ps tr u u' ->
  List.length u' = List.length u /\
  (forall x p, nth_error ps x = Some p -> (forall y, touch tr x y -> p_type p <> Fluid) -> nth_error u' x = nth_error u x) /\
  (forall x y p q, touch tr x y -> nth_error ps x = Some p -> nth_error ps y = Some q -> p_type p = Fluid ->
     exists p', nth_error u' x = Some p' /\ struck (s_restitution s) (s_colDist s) p q p').
Proof.
  intros DP ONE. induction tr as [|[i j] tr IH]; intros u u' ND CT LU SAME B; cbn [bumps] in B.
  { subst u'. split; [reflexivity|]. split; [reflexivity|]. intros x y p q [[]|[]]. }
  destruct B as (v & d & Ed & B & BS). cbn [map] in ND. apply NoDup_cons_iff in ND. destruct ND as (NI & ND). cbn [fst snd] in NI.
  assert (CIJ : contact s ps i j) by (apply CT; now left). assert (CIJ' := CIJ). destruct CIJ' as (p & q & P & Q & N & TP & TQ & _ & _).
  assert (UI : nth_error u i = Some p) by (rewrite <- P; apply (SAME i j); left; now left).
  assert (UJ : nth_error u j = Some q) by (rewrite <- Q; apply (SAME j i); right; now left).
  assert (DPP : 0 < p_dens p) by (apply (DP i p P); rewrite TP; discriminate). assert (DQ : 0 < p_dens q) by exact (DP j q Q TQ).
  destruct (bumped_struck _ _ _ _ _ _ p q d B UI UJ N (Ed p q P Q) TP DPP DQ) as (LV & OTH & HI & HJF & HJN).
  assert (CTT : forall x y, touch tr x y -> forall px, nth_error ps x = Some px -> p_type px = Fluid -> contact s ps x y).
  { intros x y [T|T] px PX FX; [apply CT; now right|]. apply contact_sym; [apply CT; now right|]. intros q0 Q0. congruence. }
  assert (NOI : forall y, ~ touch tr i y).
  { intros y T. assert (y = j) by (apply (ONE i); [exact (CTT _ _ T _ P TP)|exact CIJ]). subst y. apply NI. now apply touch_unordered. }
  assert (NOJ : forall y, touch tr j y -> p_type q <> Fluid).
  { intros y T F. assert (CJ : contact s ps j i) by (apply contact_sym; [exact CIJ|intros q0 Q0; congruence]).
    assert (y = i) by (apply (ONE j); [exact (CTT _ _ T _ Q F)|exact CJ]). subst y. apply NI. apply touch_unordered in T. now rewrite Nat.min_comm, Nat.max_comm in T. }
  assert (SV : forall x y, touch tr x y -> nth_error v x = nth_error ps x).
  { intros x y T. destruct (Nat.eq_dec x i) as [->|Xi]; [destruct (NOI y T)|]. destruct (Nat.eq_dec x j) as [->|Xj].
    - rewrite (HJN (NOJ y T)). now rewrite Q.
    - rewrite OTH by auto. apply (SAME x y). destruct T; [left|right]; now right. }
  destruct (IH v u' ND (fun a b H => CT a b (or_intror H)) (eq_trans LV LU) SV BS) as (L' & KEEP & HIT).
  split; [congruence|]. split.
  - intros x px PX NT. assert (K : nth_error u' x = nth_error v x). { apply (KEEP x px PX). intros y T. apply (NT y). destruct T; [left|right]; now right. }
    rewrite K. destruct (Nat.eq_dec x i) as [->|Xi]; [destruct (NT j); [left; now left|congruence]|]. destruct (Nat.eq_dec x j) as [->|Xj].
    + rewrite UJ. apply HJN. assert (px = q) by congruence. subst px. apply (NT i). right; now left.
    + apply OTH; auto.
  - intros x y px qy T PX QY FX. destruct (Nat.eq_dec x i) as [->|Xi].
    + assert (y = j). { destruct T as [[T|T]|[T|T]]; [congruence|destruct (NOI y); now left|congruence|destruct (NOI y); now right]. } subst y.
      assert (px = p) by congruence. assert (qy = q) by congruence. subst px qy. destruct HI as (p' & E & S'). exists p'. split; [|exact S'].
      rewrite <- E. apply (KEEP i p P). intros y T'. destruct (NOI y T').
    + destruct (Nat.eq_dec x j) as [->|Xj].
      * assert (px = q) by congruence. subst px.
        assert (y = i). { destruct T as [[T|T]|[T|T]]; [congruence|destruct (NOJ y); [now left|exact FX]|congruence|destruct (NOJ y); [now right|exact FX]]. } subst y.
        assert (qy = p) by congruence. subst qy. destruct (HJF FX) as (q' & E & S'). exists q'. split; [|exact S'].
        rewrite <- E. apply (KEEP j q Q). intros y T'. exact (NOJ y T').
      * apply (HIT x y); auto. destruct T as [[T|T]|[T|T]]; [congruence|now left|congruence|now right].
Qed.
Lemma collided_each s (ps ps' : list partR) : (forall i p, nth_error ps i = Some p -> p_type p <> Ghost -> 0 < p_dens p) ->
  (forall i j k, contact s ps i j -> contact s ps i k -> j = k) -> collided s ps ps' ->
  List.length ps' = List.length ps /\ forall i p, nth_error ps i = Some p ->
    (forall j q, contact s ps i j -> nth_error ps j = Some q -> exists p', nth_error ps' i = Some p' /\ struck (s_restitution s) (s_colDist s) p q p') /\
    ((forall j, ~ contact s ps i j) -> nth_error ps' i = Some p).
Proof.
  intros DP ONE (tr & ND & IN & B).
  assert (CT : forall i j, In (i, j) tr -> contact s ps i j).
  { intros i j H. apply IN in H. destruct H as (p & q & P & Q & N & F1 & F2 & _ & D1 & D2). exists p, q. repeat split; auto. }
  destruct (bumps_each s ps DP ONE tr ps ps' ND CT eq_refl (fun _ _ _ => eq_refl) B) as (L' & KEEP & HIT).
  split; [exact L'|]. intros i p P. split.
  - intros j q C Q. assert (C' := C). destruct C' as (p0 & q0 & P0 & Q0 & N & F1 & F2 & D1 & D2). assert (p0 = p) by congruence. assert (q0 = q) by congruence. subst p0 q0.
    apply (HIT i j p q); auto. destruct (Z.eq_dec (p_type q) Fluid) as [F|F].
    + destruct (Nat.lt_total i j) as [H|[H|H]]; [|contradiction|].
      * right. apply IN. exists q, p. rewrite (euclid_sym (p_pos q)). repeat split; auto. rewrite F1. discriminate.
      * left. apply IN. exists p, q. repeat split; auto.
    + left. apply IN. exists p, q. repeat split; auto. contradiction.
  - intros NC. rewrite (KEEP i p P); [exact P|]. intros y T F. destruct T as [T|T]; [exact (NC y (CT _ _ T))|].
    apply (NC y). apply contact_sym; [now apply CT|]. intros q0 Q0. congruence.
Qed.
