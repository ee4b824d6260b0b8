(** * The explicit pressure in doubles (C24) *)
From Coq Require Import Reals Lra PeanoNat.
From Flocq Require Import Core Plus_error Relative.
From Verif Require Export DensityF MinPressureF ExplicitFacts.
Open Scope R_scope.

(** the result of an operation whose exact value v is not negative *)
Definition result (x : f64) (v : R) : Prop := (x = B754_infinity false /\ bpow radix2 1024 <= rndF v) \/ (fin x = true /\ F2r x = rndF v /\ rndF v < bpow radix2 1024).
Lemma result_nonneg x v : 0 <= v -> result x v -> nonnegF x.
Proof. intros V [[-> _]|(F & E & _)]; [reflexivity|]. apply F_nonneg; auto. rewrite E, <- rndF_0. now apply rndF_le. Qed.
Lemma result_le x y v w : v <= w -> result x v -> result y w -> leF x y.
Proof.
  intros L [[-> A]|(F & E & A)] [[-> B]|(F' & E' & B)]; try reflexivity.
  - exfalso. apply (Rlt_irrefl (bpow radix2 1024)). eapply Rle_lt_trans; [exact A|]. eapply Rle_lt_trans; [|exact B]. now apply rndF_le.
  - apply fin_inf; auto.
  - apply Fle_fin; auto. rewrite E, E'. now apply rndF_le.
Qed.
Lemma mul_result a b : fin a = true -> fin b = true -> 0 <= F2r a -> 0 <= F2r b -> result (@nmul F64 a b) (F2r a * F2r b).
Proof.
  intros Fa Fb A B. change (@nmul F64 a b) with (Bmult mode_NE a b). pose proof (Bmult_correct 53 1024 _ _ mode_NE a b) as C.
  assert (R0 : 0 <= rndF (F2r a * F2r b)) by (rewrite <- rndF_0; apply rndF_le; apply Rmult_le_pos; auto).
  destruct (Rlt_bool_spec (Rabs (rndF (F2r a * F2r b))) (bpow radix2 1024)) as [H|H]; rewrite Rabs_pos_eq in H by auto.
  - destruct C as (C1 & C2 & _). right. rewrite C2, Fa, Fb, C1. auto.
  - left. split; auto.
    assert (Sab : Bsign a = false /\ Bsign b = false).
    { assert (NZ : F2r a * F2r b <> 0). { intros Z. rewrite Z, rndF_0 in H. apply (Rlt_irrefl 0). eapply Rlt_le_trans; [apply (bpow_gt_0 radix2 1024)|exact H]. }
      split; apply Bsign_nonneg.
      - destruct A as [A|A]; auto. rewrite <- A, Rmult_0_l in NZ. lra.
      - destruct B as [B|B]; auto. rewrite <- B, Rmult_0_r in NZ. lra. }
    destruct Sab as [Sa Sb]. rewrite Sa, Sb in C. now apply over_inf in C.
Qed.
Lemma pos_cases (x : f64) : posF x -> x = B754_infinity false \/ exists m e H, x = B754_finite false m e H.
Proof. unfold posF. destruct x as [|[]| |[] m e H]; try discriminate; eauto 6. Qed.
Lemma nonneg_fin x : nonnegF x -> fin x = true -> 0 <= F2r x.
Proof. intros N F. destruct (nonneg_F x N) as [->|[_ H]]; [discriminate|auto]. Qed.
Lemma mul_nonneg a b : nonnegF a -> nonnegF b -> fin a = true /\ fin b = true \/ posF a /\ posF b -> nonnegF (@nmul F64 a b).
Proof.
  intros A B [[Fa Fb]|[Pa Pb]].
  - assert (Ra := nonneg_fin a A Fa). assert (Rb := nonneg_fin b B Fb). eapply result_nonneg; [|apply mul_result; auto]. apply Rmult_le_pos; auto.
  - destruct (pos_cases a Pa) as [->|(m & e & H & ->)].
    + destruct (pos_cases b Pb) as [->|(m & e & H & ->)]; reflexivity.
    + destruct (pos_cases b Pb) as [->|(m' & e' & H' & ->)]; [reflexivity|].
      assert (Ra := nonneg_fin _ A eq_refl). assert (Rb := nonneg_fin _ B eq_refl). eapply result_nonneg; [|apply mul_result; auto; reflexivity]. apply Rmult_le_pos; auto.
Qed.
Lemma div_result a b : fin a = true -> fin b = true -> 0 <= F2r a -> 0 < F2r b -> result (@ndiv F64 a b) (F2r a / F2r b).
Proof.
  intros Fa Fb A B. change (@ndiv F64 a b) with (Bdiv mode_NE a b). assert (NB : F2r b <> 0) by lra. pose proof (Bdiv_correct 53 1024 _ _ mode_NE a b NB) as C.
  assert (Q0 : 0 <= F2r a / F2r b). { apply Rmult_le_pos; auto. apply Rlt_le, Rinv_0_lt_compat; auto. }
  assert (R0 : 0 <= rndF (F2r a / F2r b)) by (rewrite <- rndF_0; apply rndF_le; auto).
  destruct (Rlt_bool_spec (Rabs (rndF (F2r a / F2r b))) (bpow radix2 1024)) as [H|H]; rewrite Rabs_pos_eq in H by auto.
  - destruct C as (C1 & C2 & _). right. rewrite C2, Fa, C1. auto.
  - left. split; auto. assert (Sa : Bsign a = false).
    { apply Bsign_nonneg. destruct A as [A|A]; auto. exfalso. rewrite <- A in H. unfold Rdiv in H. rewrite Rmult_0_l, rndF_0 in H. apply (Rlt_irrefl 0). eapply Rlt_le_trans; [apply (bpow_gt_0 radix2 1024)|exact H]. }
    rewrite Sa, (Bsign_nonneg b B) in C. now apply over_inf in C.
Qed.
Lemma div_nonneg a b : nonnegF a -> fin b = true -> posF b -> nonnegF (@ndiv F64 a b).
Proof.
  intros A Fb B. destruct (pos_F b B) as [->|[_ Rb]]; [discriminate|]. destruct (nonneg_F a A) as [->|[Fa Ra]].
  - destruct (pos_cases b B) as [->|(m & e & H & ->)]; [discriminate|reflexivity].
  - eapply result_nonneg; [|apply div_result; auto]. apply Rmult_le_pos; auto. apply Rlt_le, Rinv_0_lt_compat; auto.
Qed.
Lemma div_mono a a' b : nonnegF a -> leF a a' -> fin b = true -> posF b -> leF (@ndiv F64 a b) (@ndiv F64 a' b).
Proof.
  intros A L Fb B. destruct (pos_F b B) as [->|[_ Rb]]; [discriminate|].
  assert (A' : nonnegF a') by (eapply leF_trans; eauto).
  destruct (nonneg_F a' A') as [->|[Fa' Ra']].
  - assert (N := div_nonneg a b A Fb B). destruct (pos_cases b B) as [->|(m & e & H & ->)]; [discriminate|]. apply nle_inf. apply (leF_number _ _ N).
  - destruct (nonneg_F a A) as [->|[Fa Ra]]; [destruct a'; discriminate|]. apply Fle_fin in L; auto.
    eapply result_le; [|apply div_result; auto|apply div_result; auto]. apply Rmult_le_compat_r; auto. apply Rlt_le, Rinv_0_lt_compat; auto.
Qed.
Lemma mul_mono k a a' : nonnegF k -> posF a -> leF a a' -> fin a' = true -> fin a = true -> leF (@nmul F64 k a) (@nmul F64 k a').
Proof.
  intros K A L Fa' Fa. assert (A' : posF a'). { apply Flt_fin in A; auto. apply Fle_fin in L; auto. apply Flt_fin; auto. lra. }
  destruct (nonneg_F k K) as [->|[Fk Rk]].
  - destruct (pos_cases a A) as [->|(m & e & H & ->)]; [discriminate|]. destruct (pos_cases a' A') as [->|(m' & e' & H' & ->)]; [discriminate|]. reflexivity.
  - apply Fle_fin in L; auto. assert (0 <= F2r a) by (apply nonneg_fin; auto; now apply pos_nonneg). assert (0 <= F2r a') by lra.
    eapply result_le; [|apply mul_result; auto|apply mul_result; auto]. now apply Rmult_le_compat_l.
Qed.
Lemma sub_F a b : fin a = true -> fin b = true -> posF b -> @nlt F64 b a = true -> fin (@nsub F64 a b) = true /\ F2r (@nsub F64 a b) = rndF (F2r a - F2r b) /\ 0 < rndF (F2r a - F2r b).
Proof.
  intros Fa Fb B L. apply Flt_fin in L; auto. destruct (pos_F b B) as [->|[_ Rb]]; [discriminate|].
  assert (P : 0 < rndF (F2r a - F2r b)).
  { assert (0 <= rndF (F2r a - F2r b)) by (rewrite <- rndF_0; apply rndF_le; lra). destruct H as [H|H]; auto. exfalso. symmetry in H. revert H. unfold Rminus.
    apply round_plus_neq_0; try typeclasses eauto; [apply generic_format_B2R|apply generic_format_opp, generic_format_B2R|lra]. }
  assert (H : Rabs (rndF (F2r a - F2r b)) < bpow radix2 1024).
  { rewrite Rabs_pos_eq by lra. apply Rle_lt_trans with (F2r a); [rewrite <- (rndF_B2R a) at 2; apply rndF_le; lra|]. assert (K := F2r_bound a). rewrite Rabs_pos_eq in K by lra. exact K. }
  destruct (Fminus a b Fa Fb H) as [E F]. change (@nsub F64 a b) with (Bminus mode_NE a b). auto.
Qed.

Lemma square_nonneg (c : f64) : fin c = true -> nonnegF (@nmul F64 c c).
Proof.
  intros F. change (@nmul F64 c c) with (Bmult mode_NE c c). rewrite Bmult_abs. change (Bmult mode_NE (Babs c) (Babs c)) with (@nmul F64 (Babs c) (Babs c)).
  assert (FA : fin (Babs c) = true) by (destruct c; auto). assert (0 <= F2r (Babs c)) by (destruct c; simpl; try lra; try discriminate; apply F2R_ge_0; simpl; lia).
  apply mul_nonneg; try (apply F_nonneg; auto). auto.
Qed.
Definition factor (c : f64) (p : @particle F64) : f64 := @nmul F64 (@nmul F64 c c) (p_dens p).
Lemma factor_nonneg c p : fin c = true -> fin (p_dens p) = true -> posF (p_dens p) -> nonnegF (factor c p).
Proof.
  intros Fc Fd Pd. assert (S := square_nonneg c Fc). apply mul_nonneg; auto; [now apply pos_nonneg|].
  destruct (nonneg_F _ S) as [E|[F _]]; [|left; auto]. right. rewrite E. split; [reflexivity|auto].
Qed.

Lemma explicit1_F n0 c p : fin n0 = true -> posF n0 -> fin c = true -> fin (p_dens p) = true -> posF (p_dens p) -> fin (p_nd p) = true ->
  nonnegF (@explicit1 F64 n0 c p) /\ (p_type p = Ghost \/ @nle F64 (p_nd p) n0 = true -> @explicit1 F64 n0 c p = B754_zero false).
Proof.
  intros Fn Pn Fc Fd Pd Fnd. unfold explicit1. destruct (is_type p Ghost) eqn:T; [split; auto; reflexivity|]. apply is_type_neq in T.
  destruct (@nlt F64 n0 (p_nd p)) eqn:L.
  - destruct (sub_F _ _ Fnd Fn Pn L) as (A & B & C). split.
    + apply div_nonneg; auto. apply mul_nonneg; [now apply factor_nonneg|apply F_nonneg; auto; rewrite B; lra|].
      destruct (nonneg_F _ (factor_nonneg c p Fc Fd Pd)) as [E|[F _]]; [|left; auto]. right. change (@nmul F64 (@nmul F64 c c) (p_dens p)) with (factor c p). rewrite E. split; [reflexivity|].
      apply F_pos; auto. rewrite B; lra.
    + intros [K|K]; [contradiction|]. apply Flt_fin in L; auto. apply Fle_fin in K; auto. lra.
  - split; reflexivity.
Qed.

Lemma C24_F (n0 c : f64) ps : indexed ps -> fin n0 = true -> posF n0 -> fin c = true ->
  (forall p, In p ps -> fin (p_dens p) = true /\ posF (p_dens p) /\ fin (p_nd p) = true) ->
  exists x, @explicitCalc F64 n0 c ps = Ok x /\ List.length x = List.length ps /\
    forall i p, nth_error ps i = Some p -> exists v, nth_error x i = Some v /\ nonnegF v /\
      (p_type p = Ghost \/ @nle F64 (p_nd p) n0 = true -> v = B754_zero false).
Proof.
  intros ID Fn Pn Fc H. rewrite explicitCalc_map by auto. eexists. split; [reflexivity|]. split; [apply map_length|].
  intros i p Hp. exists (@explicit1 F64 n0 c p). rewrite BaseFacts.nth_error_map, Hp. split; auto. destruct (H p (nth_error_In _ _ Hp)) as (A & B & C). apply explicit1_F; auto.
Qed.

(** a larger number density never gives a smaller pressure *)
Lemma C24_F_monotone (n0 c : f64) p q : fin n0 = true -> posF n0 -> fin c = true -> fin (p_dens p) = true -> posF (p_dens p) ->
  fin (p_nd p) = true -> fin (p_nd q) = true -> p_dens q = p_dens p -> p_type p <> Ghost -> p_type q <> Ghost ->
  @nle F64 (p_nd p) (p_nd q) = true -> @nle F64 (@explicit1 F64 n0 c p) (@explicit1 F64 n0 c q) = true.
Proof.
  intros Fn Pn Fc Fd Pd F1 F2 ED T1 T2 L. destruct (@nlt F64 n0 (p_nd p)) eqn:L1.
  2: { unfold explicit1 at 1. rewrite (proj2 (is_type_neq p Ghost) T1), L1. apply explicit1_F; auto; rewrite ED; auto. }
  assert (L2 : @nlt F64 n0 (p_nd q) = true). { apply Flt_fin in L1; auto. apply Fle_fin in L; auto. apply Flt_fin; auto. lra. }
  unfold explicit1. rewrite (proj2 (is_type_neq p Ghost) T1), (proj2 (is_type_neq q Ghost) T2), L1, L2, ED.
  destruct (sub_F _ _ F1 Fn Pn L1) as (A1 & B1 & C1). destruct (sub_F _ _ F2 Fn Pn L2) as (A2 & B2 & C2).
  assert (LS : leF (@nsub F64 (p_nd p) n0) (@nsub F64 (p_nd q) n0)). { apply Fle_fin; auto. rewrite B1, B2. apply rndF_le. apply Fle_fin in L; auto. lra. }
  assert (P1 : posF (@nsub F64 (p_nd p) n0)) by (apply F_pos; auto; rewrite B1; auto).
  apply div_mono; auto.
  - apply mul_nonneg; [now apply (factor_nonneg c p)|now apply pos_nonneg|]. destruct (nonneg_F _ (factor_nonneg c p Fc Fd Pd)) as [E|[F _]]; [|left; auto]. right.
    change (@nmul F64 (@nmul F64 c c) (p_dens p)) with (factor c p). rewrite E. split; [reflexivity|auto].
  - apply mul_mono; auto. now apply (factor_nonneg c p).
Qed.

(** ** accuracy *)
Lemma within_pos e v : ranged e v -> 0 < v.
Proof. intros [H _]. eapply Rlt_le_trans; [apply bpow_gt_0|exact H]. Qed.
Lemma within_mul e e' v w : ranged e v -> ranged e' w -> ranged (e + e') (v * w).
Proof.
  intros A B. assert (Pv := within_pos _ _ A). assert (Pw := within_pos _ _ B). destruct A, B. split.
  - replace (- (e + e'))%Z with (- e + - e')%Z by lia. rewrite bpow_plus. apply Rmult_le_compat; auto; apply bpow_ge_0.
  - rewrite bpow_plus. apply Rmult_le_compat; lra.
Qed.
Lemma within_div e e' v w : ranged e v -> ranged e' w -> ranged (e + e') (v / w).
Proof.
  intros A B. apply within_mul; auto. assert (Pw := within_pos _ _ B). destruct B as [B1 B2]. split.
  - rewrite bpow_opp. apply Rinv_le; auto.
  - replace e' with (- - e')%Z by lia. rewrite bpow_opp. apply Rinv_le; auto. apply bpow_gt_0.
Qed.
Lemma rnd_within e v : (0 <= e <= 1000)%Z -> ranged e v -> ranged e (rndF v) /\ rndF v < bpow radix2 1024 /\ exists d, Rabs d <= bpow radix2 (-53) /\ rndF v = v * (1 + d).
Proof.
  intros E W. assert (P := within_pos _ _ W). destruct W as [A B].
  assert (W' : ranged e (rndF v)). { split; [rewrite <- (rndF_bpow (-e)) by lia|rewrite <- (rndF_bpow e) by lia]; now apply rndF_le. }
  split; auto. split. { destruct W'. eapply Rle_lt_trans; [eassumption|]. apply bpow_lt. lia. }
  exists (rndF v / v - 1). assert (K := relative_error_N_FLT radix2 (-1074) 53 ltac:(lia) (fun n => negb (Z.even n)) v). rewrite (Rabs_pos_eq v) in K by lra.
  assert (K' : Rabs (rndF v - v) <= bpow radix2 (-53) * v).
  { eapply Rle_trans; [apply K|].
    - eapply Rle_trans; [|exact A]. apply bpow_le. lia.
    - apply Rmult_le_compat_r; [lra|]. change (- (53) + 1)%Z with (1 + -53)%Z. rewrite bpow_plus. change (bpow radix2 1) with 2. lra. }
  split; [|field; lra]. replace (rndF v / v - 1) with ((rndF v - v) / v) by (field; lra). unfold Rdiv. rewrite Rabs_mult, (Rabs_pos_eq (/ v)) by (apply Rlt_le, Rinv_0_lt_compat; auto).
  apply Rmult_le_reg_r with v; auto. rewrite Rmult_assoc, Rinv_l, Rmult_1_r by lra. exact K'.
Qed.
Lemma deltas u a b ka kb : 0 <= u <= 1/1000 -> 0 <= ka <= 10 -> 0 <= kb <= 10 -> Rabs a <= ka * u -> Rabs b <= kb * u -> Rabs ((1 + a) * (1 + b) - 1) <= (ka + kb + /10) * u.
Proof.
  intros U Ka Kb A B. replace ((1 + a) * (1 + b) - 1) with (a + b + a * b) by ring. eapply Rle_trans; [apply Rabs_triang|].
  assert (Rabs (a + b) <= (ka + kb) * u) by (eapply Rle_trans; [apply Rabs_triang|]; lra).
  assert (Rabs (a * b) <= /10 * u).
  { rewrite Rabs_mult. apply Rle_trans with (ka * u * (kb * u)); [apply Rmult_le_compat; auto using Rabs_pos|]. assert (ka * kb <= 100) by nra. assert (0 <= u * u <= u / 1000) by nra. nra. }
  lra.
Qed.
(** two doubles in the range that differ, differ by at least 2^(-153) *)
Lemma gap a b : ranged 100 (F2r a) -> ranged 100 (F2r b) -> F2r b < F2r a -> ranged 153 (F2r a - F2r b).
Proof.
  intros A B L. assert (Pb := within_pos _ _ B). assert (Pa := within_pos _ _ A). split.
  - assert (K : succ radix2 fexp64 (F2r b) <= F2r a) by (apply succ_le_lt; try typeclasses eauto; try apply generic_format_B2R; auto).
    rewrite succ_eq_pos in K by lra. apply Rle_trans with (ulp radix2 fexp64 (F2r b)); [|lra].
    rewrite ulp_neq_0 by lra. apply bpow_le. unfold cexp, SpecFloat.fexp, SpecFloat.emin.
    assert (M : (-100 + 1 <= mag radix2 (F2r b))%Z). { apply mag_ge_bpow. rewrite Rabs_pos_eq by lra. replace (-100 + 1 - 1)%Z with (-100)%Z by lia. apply B. } lia.
  - destruct A as [_ A]. apply Rle_trans with (F2r a); [lra|]. eapply Rle_trans; [exact A|]. apply bpow_le. lia.
Qed.

Lemma C24_F_accuracy (n0 c : f64) p : fin n0 = true -> fin c = true -> fin (p_dens p) = true -> fin (p_nd p) = true ->
  ranged 100 (F2r n0) -> ranged 100 (Rabs (F2r c)) -> ranged 100 (F2r (p_dens p)) -> ranged 100 (F2r (p_nd p)) ->
  p_type p <> Ghost -> F2r n0 < F2r (p_nd p) ->
  let v := F2r c * F2r c * F2r (p_dens p) * (F2r (p_nd p) - F2r n0) / F2r n0 in
  fin (@explicit1 F64 n0 c p) = true /\ Rabs (F2r (@explicit1 F64 n0 c p) - v) <= bpow radix2 (-50) * v.
Proof.
  intros Fn Fc Fd Fnd Wn Wc Wd Wnd T L v.
  assert (Pn := within_pos _ _ Wn). assert (Pd := within_pos _ _ Wd). assert (Pc := within_pos _ _ Wc).
  unfold explicit1. rewrite (proj2 (is_type_neq p Ghost) T), (proj2 (Flt_fin n0 (p_nd p) Fn Fnd) L).
  destruct (sub_F (p_nd p) n0 Fnd Fn (F_pos n0 Fn Pn) (proj2 (Flt_fin n0 (p_nd p) Fn Fnd) L)) as (F3 & E3 & P3).
  (* c * c *)
  assert (Q : F2r c * F2r c = Rabs (F2r c) * Rabs (F2r c)) by (rewrite <- Rabs_mult, Rabs_pos_eq; auto; nra).
  assert (W1 : ranged 200 (F2r c * F2r c)) by (rewrite Q; exact (within_mul 100 100 _ _ Wc Wc)).
  destruct (rnd_within 200 _ ltac:(lia) W1) as (V1 & B1 & d1 & D1 & X1).
  assert (S1 : fin (@nmul F64 c c) = true /\ F2r (@nmul F64 c c) = rndF (F2r c * F2r c)).
  { change (@nmul F64 c c) with (Bmult mode_NE c c). pose proof (Bmult_correct 53 1024 _ _ mode_NE c c) as C.
    rewrite Rlt_bool_true in C; [destruct C as (C1 & C2 & _); rewrite C2, Fc; auto|]. change (round radix2 _ _ _) with (rndF (F2r c * F2r c)).
    rewrite Rabs_pos_eq; [exact B1|]. apply Rlt_le, (within_pos _ _ V1). }
  destruct S1 as [F1 E1].
  (* times density *)
  assert (W2 := within_mul 200 100 _ _ V1 Wd). change (200 + 100)%Z with 300%Z in W2. destruct (rnd_within 300 _ ltac:(lia) W2) as (V2 & B2 & d2 & D2 & X2).
  assert (S2 := mul_result (@nmul F64 c c) (p_dens p) F1 Fd ltac:(rewrite E1; apply Rlt_le, (within_pos _ _ V1)) ltac:(lra)). rewrite E1 in S2.
  destruct S2 as [[_ H]|(F2 & E2 & _)]; [exfalso; apply (Rlt_irrefl (bpow radix2 1024)); eapply Rle_lt_trans; eauto|].
  (* the difference *)
  assert (W3 := gap (p_nd p) n0 Wnd Wn L). destruct (rnd_within 153 _ ltac:(lia) W3) as (V3 & B3 & d3 & D3 & X3).
  (* product *)
  assert (W4 := within_mul 300 153 _ _ V2 V3). change (300 + 153)%Z with 453%Z in W4. destruct (rnd_within 453 _ ltac:(lia) W4) as (V4 & B4 & d4 & D4 & X4).
  assert (S4 := mul_result _ _ F2 F3 ltac:(rewrite E2; apply Rlt_le, (within_pos _ _ V2)) ltac:(rewrite E3; lra)). rewrite E2, E3 in S4.
  destruct S4 as [[_ H]|(F4 & E4 & _)]; [exfalso; apply (Rlt_irrefl (bpow radix2 1024)); eapply Rle_lt_trans; eauto|].
  (* quotient *)
  assert (W5 := within_div 453 100 _ _ V4 Wn). change (453 + 100)%Z with 553%Z in W5. destruct (rnd_within 553 _ ltac:(lia) W5) as (V5 & B5 & d5 & D5 & X5).
  assert (S5 := div_result _ n0 F4 Fn ltac:(rewrite E4; apply Rlt_le, (within_pos _ _ V4)) Pn). rewrite E4 in S5.
  destruct S5 as [[_ H]|(F5 & E5 & _)]; [exfalso; apply (Rlt_irrefl (bpow radix2 1024)); eapply Rle_lt_trans; eauto|].
  split; [exact F5|]. rewrite E5, X5, X4, X3, X2, X1.
  set (u := bpow radix2 (-53)) in *. assert (U : 0 <= u <= 1/1000).
  { split; [apply bpow_ge_0|]. apply Rle_trans with (bpow radix2 (-10)); [apply bpow_le; lia|]. simpl. lra. }
  assert (K2 := deltas u d1 d2 1 1 U ltac:(lra) ltac:(lra) ltac:(lra) ltac:(lra)). set (a2 := (1 + d1) * (1 + d2) - 1) in *.
  assert (K3 := deltas u a2 d3 (1 + 1 + /10) 1 U ltac:(lra) ltac:(lra) K2 ltac:(lra)). set (a3 := (1 + a2) * (1 + d3) - 1) in *.
  assert (K4 := deltas u a3 d4 (1 + 1 + /10 + 1 + /10) 1 U ltac:(lra) ltac:(lra) K3 ltac:(lra)). set (a4 := (1 + a3) * (1 + d4) - 1) in *.
  assert (K5 := deltas u a4 d5 (1 + 1 + /10 + 1 + /10 + 1 + /10) 1 U ltac:(lra) ltac:(lra) K4 ltac:(lra)). set (a5 := (1 + a4) * (1 + d5) - 1) in *.
  assert (PV : 0 < v). { unfold v. apply Rdiv_lt_0_compat; auto. apply Rmult_lt_0_compat; [|lra]. apply Rmult_lt_0_compat; auto. apply (within_pos _ _ W1). }
  match goal with |- Rabs ?t <= _ => replace t with (v * a5) end.
  2: { unfold v, a5, a4, a3, a2. field. lra. }
  rewrite Rabs_mult, (Rabs_pos_eq v) by lra. rewrite Rmult_comm. apply Rmult_le_compat_r; [lra|].
  change (-50)%Z with (3 + -53)%Z. rewrite bpow_plus. fold u. change (bpow radix2 3) with 8. lra.
Qed.
