(** * The weight function in doubles (C08) *)
From Coq Require Import Reals Lra Psatz.
From Flocq Require Import Core Relative Sterbenz.
From Verif Require Export SpecF Physics FloatFacts.
Open Scope R_scope.

Lemma one_F : F2r (@nofZ F64 1) = 1 /\ fin (@nofZ F64 1) = true.
Proof. split; [|reflexivity]. simpl. unfold F2R. simpl. lra. Qed.
Lemma zero_F : F2r (@nofZ F64 0) = 0 /\ fin (@nofZ F64 0) = true.
Proof. split; reflexivity. Qed.

Definition tiny := bpow radix2 (-52).
Lemma generic_1 : generic_format radix2 fexp64 1.
Proof. rewrite <- (proj1 one_F). apply generic_format_B2R. Qed.
Lemma ulp_1 : ulp radix2 fexp64 1 = tiny.
Proof. change 1 with (bpow radix2 0). rewrite ulp_bpow. reflexivity. Qed.
Lemma succ_1 : succ radix2 fexp64 1 = 1 + tiny.
Proof. rewrite succ_eq_pos by lra. now rewrite ulp_1. Qed.

(** the quotient of two different doubles is never rounded to one *)
Lemma quotient_above x y : generic_format radix2 fexp64 x -> generic_format radix2 fexp64 y -> 0 < x -> x < y -> 1 + tiny <= rndF (y / x).
Proof.
  intros Fx Fy X XY. assert (S := succ_le_lt radix2 fexp64 x y Fx Fy XY). rewrite succ_eq_pos in S by lra.
  assert (U : x * bpow radix2 (-53) < ulp radix2 fexp64 x).
  { rewrite ulp_neq_0 by lra. unfold cexp. destruct (mag radix2 x) as [e He]. simpl mag_val. specialize (He ltac:(lra)). rewrite Rabs_pos_eq in He by lra.
    apply Rlt_le_trans with (bpow radix2 e * bpow radix2 (-53)).
    - apply Rmult_lt_compat_r; [apply bpow_gt_0|]. apply He.
    - rewrite <- bpow_plus. apply bpow_le. unfold SpecFloat.fexp. lia. }
  rewrite <- succ_1. apply round_N_ge_midp; [typeclasses eauto|apply generic_format_succ; [typeclasses eauto|apply generic_1]|].
  rewrite pred_succ by (try typeclasses eauto; apply generic_1). rewrite succ_1.
  apply Rmult_lt_reg_r with x; auto. replace (y / x * x) with y by (field; lra).
  unfold tiny. change (-52)%Z with (1 + -53)%Z. rewrite bpow_plus. change (bpow radix2 1) with 2.
  match goal with |- ?l < _ => replace l with (x + x * bpow radix2 (-53)) by field end. eapply Rlt_le_trans; [apply Rplus_lt_compat_l; exact U|exact S].
Qed.

Lemma plus_tiny_generic : generic_format radix2 fexp64 tiny.
Proof. apply generic_format_bpow. unfold SpecFloat.fexp, SpecFloat.emin. lia. Qed.

(** comparisons with zero *)
Lemma pos_F (x : f64) : @nlt F64 (@nofZ F64 0) x = true -> x = B754_infinity false \/ fin x = true /\ 0 < F2r x.
Proof.
  destruct x as [s|[]| |s m e H]; simpl; try discriminate; auto. intros K. right. split; auto.
  destruct s; [discriminate|]. apply F2R_gt_0. reflexivity.
Qed.
Lemma fin_inf (x : f64) : fin x = true -> @nle F64 x (B754_infinity false) = true.
Proof. destruct x as [| | |[]]; try discriminate; auto. Qed.
Lemma minus_1 (q : f64) : fin q = true -> 1 <= F2r q -> let w := @nsub F64 q (@nofZ F64 1) in fin w = true /\ F2r w = rndF (F2r q - 1).
Proof.
  intros Q L. destruct one_F as [O1 O2]. destruct (Fminus q (@nofZ F64 1) Q O2) as [A B].
  - rewrite O1. rewrite Rabs_pos_eq; [|rewrite <- rndF_0; apply rndF_le; lra].
    apply Rle_lt_trans with (F2r q); [rewrite <- (rndF_B2R q) at 2; apply rndF_le; lra|]. assert (K := F2r_bound q). rewrite Rabs_pos_eq in K by lra. exact K.
  - split; auto. rewrite <- O1. exact A.
Qed.
Lemma over_inf (x : f64) : B2SF x = binary_overflow 53 1024 mode_NE false -> x = B754_infinity false.
Proof. destruct x as [|[]| |]; unfold binary_overflow; simpl; intros H; (reflexivity || discriminate H). Qed.
(** the quotient of two positive doubles *)
Lemma quotient (x y : f64) : fin x = true -> fin y = true -> 0 < F2r x -> 0 < F2r y ->
  @ndiv F64 y x = B754_infinity false /\ bpow radix2 1024 <= rndF (F2r y / F2r x) \/ fin (@ndiv F64 y x) = true /\ F2r (@ndiv F64 y x) = rndF (F2r y / F2r x).
Proof.
  intros Fx Fy X Y. assert (NX : F2r x <> 0) by lra. pose proof (Bdiv_correct 53 1024 _ _ mode_NE y x NX) as C.
  destruct (Rlt_bool_spec (Rabs (rndF (F2r y / F2r x))) (bpow radix2 1024)).
  - destruct C as (C1 & C2 & _). right. rewrite Fy in C2. auto.
  - left. split; [|rewrite Rabs_pos_eq in H; [exact H|]; rewrite <- rndF_0; apply rndF_le; apply Rlt_le, Rdiv_lt_0_compat; lra].
    apply over_inf. eapply eq_trans; [exact C|]. f_equal.
    assert (SP : forall u : f64, 0 < F2r u -> Bsign u = false).
    { intros u U. destruct u as [| | |s m e H1]; simpl in U; try lra. destruct s; auto. exfalso. assert (K := F2R_lt_0 radix2 (Float radix2 (Zneg m) e) eq_refl). simpl in *. apply (Rlt_irrefl 0). eapply Rlt_trans; eauto. }
    rewrite !SP; auto.
Qed.

Lemma rndF_bpow e : (-1074 <= e)%Z -> rndF (bpow radix2 e) = bpow radix2 e.
Proof. intros H. apply round_generic; [typeclasses eauto|]. apply generic_format_bpow. unfold SpecFloat.fexp, SpecFloat.emin. lia. Qed.
Lemma rndF_rel x : 1 <= x -> Rabs (rndF x - x) <= bpow radix2 (-53) * x.
Proof.
  intros H. assert (K := relative_error_N_FLT radix2 (-1074) 53 ltac:(lia) (fun n => negb (Z.even n)) x). rewrite (Rabs_pos_eq x) in K by lra.
  rewrite <- (Rmult_1_l x) at 1. eapply Rle_trans; [rewrite Rmult_1_l; apply K|].
  - apply Rle_trans with 1; auto. change 1 with (bpow radix2 0). apply bpow_le. lia.
  - apply Rmult_le_compat_r; [lra|]. change (- (53) + 1)%Z with (1 + -53)%Z. rewrite bpow_plus. change (bpow radix2 1) with 2. lra.
Qed.

Definition w_of (re d : f64) : f64 := @nsub F64 (@ndiv F64 re d) (@nofZ F64 1).
Lemma w_of_F re d : fin re = true -> fin d = true -> 0 < F2r d -> F2r d < F2r re ->
  @nlt F64 (@nofZ F64 0) (w_of re d) = true /\
  (w_of re d = B754_infinity false /\ bpow radix2 1023 <= F2r re / F2r d \/
   fin (w_of re d) = true /\ F2r (w_of re d) = rndF (rndF (F2r re / F2r d) - 1) /\ Rabs (F2r (w_of re d) - (F2r re / F2r d - 1)) <= bpow radix2 (-51) * (F2r re / F2r d)).
Proof.
  intros Fr Fd D L. assert (Q1 : 1 < F2r re / F2r d). { apply Rmult_lt_reg_r with (F2r d); auto. replace (F2r re / F2r d * F2r d) with (F2r re) by (field; lra). lra. }
  assert (QA := quotient_above (F2r d) (F2r re) (generic_format_B2R _ _ d) (generic_format_B2R _ _ re) D L).
  assert (T0 : 0 < tiny) by apply bpow_gt_0. unfold w_of.
  destruct (quotient d re Fd Fr D ltac:(lra)) as [[E B]|[F E]].
  - rewrite E. split; [reflexivity|]. left. split; [reflexivity|]. apply Rnot_lt_le. intros K.
    apply Rlt_le, rndF_le in K. rewrite (rndF_bpow 1023) in K by lia. apply (Rlt_irrefl (bpow radix2 1024)).
    eapply Rle_lt_trans; [exact B|]. eapply Rle_lt_trans; [exact K|]. apply bpow_lt. lia.
  - set (x := F2r re / F2r d) in *. destruct (minus_1 _ F) as [W1 W2]; [rewrite E; lra|]. rewrite E in W2.
    assert (P : tiny <= rndF (rndF x - 1)). { unfold tiny at 1. rewrite <- (rndF_bpow (-52)) by lia. apply rndF_le. fold tiny. lra. }
    split; [apply Flt_fin; [reflexivity|exact W1|]; rewrite W2; change (F2r (@nofZ F64 0)) with 0; lra|].
    right. split; auto. split; auto. rewrite W2.
    assert (R1 := rndF_rel x ltac:(lra)). set (u := bpow radix2 (-53)) in *. assert (U : 0 < u < 1/1000).
    { split; [apply bpow_gt_0|]. apply Rle_lt_trans with (bpow radix2 (-10)); [apply bpow_le; lia|]. simpl. lra. }
    assert (R2 : Rabs (rndF (rndF x - 1) - (rndF x - 1)) <= u * (rndF x)).
    { destruct (Rle_or_lt 2 (rndF x)) as [G|G].
      - eapply Rle_trans; [apply rndF_rel; lra|]. apply Rmult_le_compat_l; lra.
      - rewrite round_generic; [|typeclasses eauto|]. 2: { apply sterbenz; try typeclasses eauto; [apply generic_format_round; typeclasses eauto|apply generic_1|]. lra. }
        replace (rndF x - 1 - (rndF x - 1)) with 0 by ring. rewrite Rabs_R0. apply Rmult_le_pos; lra. }
    change (-51)%Z with (2 + -53)%Z. rewrite bpow_plus. fold u. change (bpow radix2 2) with 4.
    apply Rabs_le_inv in R1, R2. apply Rabs_le. nra.
Qed.

Lemma C08_F asserts (re d : f64) : fin re = true -> @nlt F64 (@nofZ F64 0) d = true ->
  exists w : f64, @weight F64 asserts d re = Ok w /\
    (@nle F64 re d = true -> w = B754_zero false) /\
    (@nlt F64 d re = true -> @nlt F64 (@nofZ F64 0) w = true /\
       (w = B754_infinity false /\ bpow radix2 1023 <= F2r re / F2r d \/
        fin w = true /\ Rabs (F2r w - (F2r re / F2r d - 1)) <= bpow radix2 (-51) * (F2r re / F2r d))).
Proof.
  intros Fr D. unfold weight. rewrite D. replace (cassert asserts true) with (@Ok unit tt) by (destruct asserts; reflexivity). cbn [bind]. eexists. split; [reflexivity|].
  destruct (pos_F d D) as [->|[Fd P]].
  - rewrite (fin_inf re Fr). split; [reflexivity|]. intros K. destruct re as [| | |[]]; discriminate.
  - split.
    + intros ->. reflexivity.
    + intros L. apply Flt_fin in L; auto. destruct (@nle F64 re d) eqn:E; [apply Fle_fin in E; auto; lra|].
      destruct (w_of_F re d Fr Fd P L) as [A [B|[B [_ C]]]]; auto.
Qed.

Lemma nle_refl (x : f64) : is_nan x = false -> @nle F64 x x = true.
Proof.
  intros H. destruct (fin x) eqn:F; [apply Fle_fin; auto; lra|]. destruct x as [|[]| |]; try discriminate; reflexivity.
Qed.
Lemma nle_inf (x : f64) : is_nan x = false -> @nle F64 x (B754_infinity false) = true.
Proof. destruct x as [|[]| |[]]; try discriminate; reflexivity. Qed.
Lemma nlt_nle (x y : f64) : @nlt F64 x y = true -> @nle F64 x y = true.
Proof. simpl. destruct (Fcmp x y) as [[]|]; auto. Qed.

Lemma C08_F_antitone asserts (re d1 d2 : f64) : fin re = true -> @nlt F64 (@nofZ F64 0) d1 = true -> @nle F64 d1 d2 = true ->
  exists w1 w2 : f64, @weight F64 asserts d1 re = Ok w1 /\ @weight F64 asserts d2 re = Ok w2 /\ @nle F64 w2 w1 = true.
Proof.
  intros Fr D1 L. assert (D2 : @nlt F64 (@nofZ F64 0) d2 = true).
  { destruct (pos_F d1 D1) as [->|[F P]]; [destruct d2 as [|[]| |[] ]; try discriminate; reflexivity|].
    destruct (fin d2) eqn:F2; [apply Fle_fin in L; auto; apply Flt_fin; auto; change (F2r (@nofZ F64 0)) with 0; lra|].
    destruct d2 as [|[]| |]; try discriminate; try reflexivity; destruct d1 as [| | |[]]; discriminate. }
  unfold weight. rewrite D1, D2. replace (cassert asserts true) with (@Ok unit tt) by (destruct asserts; reflexivity). cbn [bind]. do 2 eexists. split; [reflexivity|]. split; [reflexivity|].
  destruct (pos_F d2 D2) as [->|[F2 P2]].
  { rewrite (fin_inf re Fr). destruct (@nle F64 re d1) eqn:E1; [reflexivity|]. destruct (pos_F d1 D1) as [->|[F1 P1]]; [rewrite (fin_inf re Fr) in E1; discriminate|].
    assert (L1 : F2r d1 < F2r re). { apply Rnot_le_lt. intros K. apply Fle_fin in K; auto. congruence. }
    destruct (w_of_F re d1 Fr F1 P1 L1) as [A _]. apply nlt_nle, A. }
  destruct (pos_F d1 D1) as [->|[F1 P1]]. { destruct d2 as [| | |[]]; try discriminate. }
  apply Fle_fin in L; auto. destruct (@nle F64 re d2) eqn:E2.
  { destruct (@nle F64 re d1) eqn:E1; [reflexivity|].
    assert (L1 : F2r d1 < F2r re). { apply Rnot_le_lt. intros K. apply Fle_fin in K; auto. congruence. }
    destruct (w_of_F re d1 Fr F1 P1 L1) as [A _]. apply nlt_nle, A. }
  assert (L2 : F2r d2 < F2r re). { apply Rnot_le_lt. intros K. apply Fle_fin in K; auto. congruence. }
  assert (L1 : F2r d1 < F2r re) by lra.
  destruct (@nle F64 re d1) eqn:E1; [apply Fle_fin in E1; auto; lra|].
  destruct (w_of_F re d2 Fr F2 P2 L2) as [A2 B2]. fold (w_of re d1). fold (w_of re d2).
  destruct (w_of_F re d1 Fr F1 P1 L1) as [A1 [[-> _]|[FW1 [E _]]]].
  { apply nle_inf. destruct B2 as [[-> _]|[F _]]; [reflexivity|]. destruct (w_of re d2); try discriminate; reflexivity. }
  assert (Q : F2r re / F2r d2 <= F2r re / F2r d1). { unfold Rdiv. apply Rmult_le_compat_l; [lra|]. apply Rinv_le; lra. }
  apply rndF_le in Q.
  unfold w_of in *. destruct (quotient d1 re F1 Fr P1 ltac:(lra)) as [[X _]|[FQ X]]; [rewrite X in FW1; discriminate|].
  destruct (quotient d2 re F2 Fr P2 ltac:(lra)) as [[Y B]|[FQ2 Y]].
  { exfalso. assert (K := F2r_bound (@ndiv F64 re d1)). rewrite X in K. rewrite Rabs_pos_eq in K; [|apply Rle_trans with (bpow radix2 1024); [apply bpow_ge_0|lra]].
    apply (Rlt_irrefl (bpow radix2 1024)). eapply Rle_lt_trans; [exact B|]. eapply Rle_lt_trans; [exact Q|exact K]. }
  destruct B2 as [[B2 _]|[FW2 [E' _]]].
  { exfalso. assert (K := quotient_above (F2r d2) (F2r re) (generic_format_B2R _ _ d2) (generic_format_B2R _ _ re) P2 L2). assert (T0 : 0 < tiny) by apply bpow_gt_0.
    destruct (minus_1 _ FQ2) as [M _]; [rewrite Y; lra|]. rewrite B2 in M. discriminate. }
  apply Fle_fin; auto. rewrite E, E'. apply rndF_le. lra.
Qed.
