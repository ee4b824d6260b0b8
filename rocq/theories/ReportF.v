(** * The progress report in doubles (C64) *)
From Coq Require Import Reals Lra Psatz.
From Flocq Require Import Core.
From Verif Require Export ExplicitF Sim.
Open Scope R_scope.

Definition upto (k : Z) (x : f64) : Prop := fin x = true /\ 0 <= F2r x <= bpow radix2 k.
Definition least (k : Z) (x : f64) : Prop := fin x = true /\ bpow radix2 k <= F2r x.
Lemma rnd_bpow k : (-1074 <= k)%Z -> rndF (bpow radix2 k) = bpow radix2 k.
Proof.
  intros H. apply round_generic; [typeclasses eauto|]. apply generic_format_bpow. unfold SpecFloat.fexp, SpecFloat.emin. lia.
Qed.
Lemma rnd_upto v k : 0 <= v <= bpow radix2 k -> (-1074 <= k)%Z -> 0 <= rndF v <= bpow radix2 k.
Proof. intros [A B] K. split; [rewrite <- rndF_0; now apply rndF_le|rewrite <- (rnd_bpow k K); now apply rndF_le]. Qed.
Lemma result_upto x v k : result x v -> 0 <= v <= bpow radix2 k -> (-1074 <= k < 1024)%Z -> upto k x.
Proof.
  intros R V K. destruct (rnd_upto v k V) as [A B]; [lia|]. destruct R as [[_ R]|(F & E & _)].
  - exfalso. apply (Rlt_irrefl (bpow radix2 1024)). eapply Rle_lt_trans; [exact R|]. eapply Rle_lt_trans; [exact B|]. apply bpow_lt. lia.
  - split; [exact F|]. rewrite E. auto.
Qed.
Lemma mul_upto x y a b : upto a x -> upto b y -> (-1074 <= a + b < 1024)%Z -> upto (a + b) (@nmul F64 x y).
Proof.
  intros (Fx & X) (Fy & Y) K. eapply result_upto; [apply mul_result; tauto| |exact K]. rewrite bpow_plus. split; [apply Rmult_le_pos; tauto|apply Rmult_le_compat; tauto].
Qed.
Lemma div_upto x y a b : upto a x -> least b y -> (-1074 <= a - b < 1024)%Z -> upto (a - b) (@ndiv F64 x y).
Proof.
  intros (Fx & X) (Fy & Y) K. assert (Py : 0 < F2r y) by (eapply Rlt_le_trans; [apply (bpow_gt_0 radix2 b)|exact Y]).
  eapply result_upto; [apply div_result; tauto| |exact K].
  assert (I : / F2r y <= bpow radix2 (- b)). { rewrite bpow_opp. apply Rinv_le_contravar; [apply bpow_gt_0|exact Y]. }
  assert (I0 : 0 < / F2r y) by now apply Rinv_0_lt_compat. unfold Z.sub. rewrite bpow_plus. split; [apply Rmult_le_pos; [tauto|lra]|apply Rmult_le_compat; try tauto; lra].
Qed.
Lemma mul_least x y a b : least a x -> least b y -> (-1074 <= a + b)%Z -> fin (@nmul F64 x y) = true -> least (a + b) (@nmul F64 x y).
Proof.
  intros (Fx & X) (Fy & Y) K F. split; [exact F|]. pose proof (bpow_gt_0 radix2 a). pose proof (bpow_gt_0 radix2 b).
  destruct (mul_result x y Fx Fy) as [[R _]|(_ & E & _)]; [lra|lra|rewrite R in F; discriminate|]. rewrite E.
  rewrite <- (rnd_bpow (a + b) K). apply rndF_le. rewrite bpow_plus. apply Rmult_le_compat; lra.
Qed.
Lemma ofZ_upto z k : (0 <= z <= 2 ^ k)%Z -> (0 <= k < 1024)%Z -> upto k (@nofZ F64 z).
Proof.
  intros Hz Hk. cbn [nofZ F64]. pose proof (binary_normalize_correct 53 1024 _ _ mode_NE z 0 false) as C. cbn zeta in C.
  assert (V : F2R (Float radix2 z 0) = IZR z) by (unfold F2R; simpl; ring). rewrite V in C.
  assert (B : 0 <= IZR z <= bpow radix2 k). { split; [now apply IZR_le|]. rewrite <- IZR_Zpower by lia. apply IZR_le. exact (proj2 Hz). }
  destruct (rnd_upto _ _ B) as [B1 B2]; [lia|]. rewrite Rlt_bool_true in C.
  - destruct C as (C1 & C2 & _). split; [exact C2|]. rewrite C1. auto.
  - rewrite Rabs_pos_eq by exact B1. eapply Rle_lt_trans; [exact B2|]. apply bpow_lt. lia.
Qed.
Lemma ofZ_least z k j : (2 ^ k <= z <= 2 ^ j)%Z -> (0 <= k)%Z -> (0 <= j < 1024)%Z -> least k (@nofZ F64 z).
Proof.
  intros Hz Hk Hj. assert (P : (0 < 2 ^ k)%Z) by (apply Z.pow_pos_nonneg; lia). destruct (ofZ_upto z j ltac:(lia) Hj) as (F & _). split; [exact F|].
  cbn [nofZ F64] in *. pose proof (binary_normalize_correct 53 1024 _ _ mode_NE z 0 false) as C. cbn zeta in C.
  assert (V : F2R (Float radix2 z 0) = IZR z) by (unfold F2R; simpl; ring). rewrite V in C.
  assert (B : bpow radix2 k <= IZR z). { rewrite <- IZR_Zpower by lia. apply IZR_le. exact (proj1 Hz). }
  assert (B' : 0 <= IZR z <= bpow radix2 j). { split; [apply IZR_le; lia|]. rewrite <- IZR_Zpower by lia. apply IZR_le. exact (proj2 Hz). }
  destruct (rnd_upto _ _ B') as [B1 B2]; [lia|]. rewrite Rlt_bool_true in C.
  - destruct C as (C1 & _). rewrite C1, <- (rnd_bpow k) by lia. now apply rndF_le.
  - rewrite Rabs_pos_eq by exact B1. eapply Rle_lt_trans; [exact B2|]. apply bpow_lt. lia.
Qed.

(** the report does not fail as long as the run so far has taken less than 2^e ns, where
    e + t + d <= 61 for (end - start) <= 2^t and dt >= 2^-d *)
Lemma report_fine real a b (st : @sim F64) e t d :
  (0 < si_step st <= int_max)%Z -> upto t (@nsub F64 (si_end st) (si_start st)) -> least (- d) (si_dt st) ->
  (0 <= e)%Z -> (-900 <= t)%Z -> (-900 <= d)%Z -> (-900 <= t + d)%Z -> (e + t + d <= 61)%Z ->
  (0 <= b - real <= 2 ^ e)%Z -> (0 <= b - a <= int64_max)%Z -> (b - real <= int64_max)%Z -> exists r, timeStepReport real (a, b) st = Ok r.
Proof.
  intros K T D He Ht Hd Htd Hs B1 B2 B3. unfold timeStepReport.
  assert (I : forall z, (int64_min <= z <= int64_max)%Z -> in_int64 z = true).
  { intros z Hz. unfold in_int64. destruct (Z.leb_spec int64_min z); [|lia]. destruct (Z.leb_spec z int64_max); [reflexivity|lia]. }
  assert (C : forall z, (int64_min <= z <= int64_max)%Z -> cint64 z = Ok z) by (intros z Hz; unfold cint64; now rewrite I).
  rewrite (C (b - real)%Z) by (unfold int64_min; lia). cbn [bind]. destruct (Z.eqb_spec (si_step st) 0); [lia|].
  assert (He2 : (e < 1024)%Z) by lia.
  assert (E1 : upto e (@nofZ F64 (b - real))) by (apply ofZ_upto; lia).
  assert (G : least 29 (@nofZ F64 1000000000)) by (apply (ofZ_least _ 29 30); lia).
  assert (G' : upto 30 (@nofZ F64 1000000000)) by (apply ofZ_upto; lia).
  assert (S1 : least 0 (@nofZ F64 (si_step st))) by (apply (ofZ_least _ 0 31); unfold int_max in *; lia).
  assert (S2 : upto 31 (@nofZ F64 (si_step st))) by (apply ofZ_upto; unfold int_max in *; lia).
  assert (M : least 29 (@nmul F64 (@nofZ F64 (si_step st)) (@nofZ F64 1000000000))).
  { apply (mul_least _ _ 0 29 S1 G); [lia|]. apply (mul_upto _ _ 31 30 S2 G'). lia. }
  set (ave := @ndiv F64 (@nofZ F64 (b - real)) (@nmul F64 (@nofZ F64 (si_step st)) (@nofZ F64 1000000000))) in *.
  assert (A : upto (e - 29) ave) by (apply div_upto; [exact E1|exact M|lia]).
  set (total := @nmul F64 (@ndiv F64 (@nmul F64 ave (@nsub F64 (si_end st) (si_start st))) (si_dt st)) (@nofZ F64 1000000000)).
  assert (Q : upto (e - 29 + t - - d + 30) total). { apply mul_upto; [|exact G'|lia]. apply div_upto; [|exact D|lia]. apply mul_upto; [exact A|exact T|lia]. }
  assert (Q' : fin total = true /\ 0 <= F2r total <= bpow radix2 62).
  { destruct Q as (Q1 & Q2 & Q3). split; [exact Q1|]. split; [exact Q2|]. eapply Rle_trans; [exact Q3|]. apply bpow_le. lia. }
  destruct Q' as (Q1 & Q2 & Q3).
  assert (TI : @to_int64 F64 total = Ok (Ztrunc (F2r total)) /\ (0 <= Ztrunc (F2r total) <= 2 ^ 62)%Z).
  { assert (Z0 : (0 <= Ztrunc (F2r total))%Z) by (rewrite <- (Ztrunc_IZR 0); now apply Ztrunc_le).
    assert (Z1 : (Ztrunc (F2r total) <= 2 ^ 62)%Z) by (rewrite <- (Ztrunc_IZR (2 ^ 62)); apply Ztrunc_le; eapply Rle_trans; [exact Q3|]; right; symmetry; apply (IZR_Zpower radix2 62); lia).
    split; [|auto]. unfold to_int64. cbn [ntrunc F64]. rewrite Q1, Btrunc_Ztrunc, I; [reflexivity|]. unfold int64_min, int64_max in *. lia. }
  destruct TI as (TI & TB). cbn zeta. rewrite TI. cbn [bind]. rewrite (C (_ - (b - real))%Z) by (unfold int64_min, int64_max in *; lia). cbn [bind].
  rewrite (C (b - a)%Z) by (unfold int64_min in *; lia). cbn [bind]. eauto.
Qed.
