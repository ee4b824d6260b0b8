(** * How far rounding can be from the exact distance in the neighbour search *)
From Coq Require Import Reals Lra Psatz.
From Flocq Require Import Core Relative Plus_error.
From Verif Require Export NeighborF NeighborProps.
Open Scope R_scope.

Notation U := (/ 9007199254740992).        (* 2^-53 *)
Notation b2 := (bpow radix2).

Lemma bU : u_ro radix2 53 = U.
Proof. unfold u_ro. simpl. lra. Qed.

Lemma eps_bound e : Rabs e <= u_ro radix2 53 / (1 + u_ro radix2 53) -> Rabs e <= U.
Proof.
  rewrite bU. intros H. eapply Rle_trans; [exact H|].
  apply Rmult_le_reg_r with (1 + U); [lra|]. unfold Rdiv. rewrite Rmult_assoc, Rinv_l by lra. nra.
Qed.

Lemma rnd_plus_err (x y : R) : generic_format radix2 fexp64 x -> generic_format radix2 fexp64 y ->
  exists e, Rabs e <= U /\ rndF (x + y) = (x + y) * (1 + e).
Proof.
  intros Hx Hy. destruct (FLT_plus_error_N_ex radix2 (3 - 1024 - 53) 53 (fun x => negb (Z.even x)) x y Hx Hy) as (e & He & E).
  exists e. split; [now apply eps_bound|exact E].
Qed.

Lemma rnd_err (x : R) : exists e h, Rabs e <= U /\ Rabs h <= b2 (-1075) /\ rndF x = x * (1 + e) + h.
Proof.
  destruct (relative_error_N_FLT'_ex radix2 (3 - 1024 - 53) 53 eq_refl (fun x => negb (Z.even x)) x) as (e & h & He & Hh & _ & E).
  exists e, h. split; [now apply eps_bound|]. split; [|exact E].
  replace (b2 (-1075)) with (/ 2 * b2 (3 - 1024 - 53)); auto.
  replace (/ 2) with (b2 (-1)) by (simpl; lra). rewrite <- bpow_plus. reflexivity.
Qed.

Lemma fmt (x : f64) : generic_format radix2 fexp64 (F2r x).
Proof. apply generic_format_B2R. Qed.

Lemma rnd_bounded v k : (-1000 <= k <= 1023)%Z -> Rabs v <= b2 k -> Rabs (rndF v) <= b2 k.
Proof.
  intros Hk H. apply abs_round_le_generic; [typeclasses eauto|typeclasses eauto| |exact H].
  apply generic_format_bpow. unfold SpecFloat.fexp, SpecFloat.emin. lia.
Qed.
Lemma b2_lt k : (k <= 1023)%Z -> b2 k < b2 1024.
Proof. intros. apply bpow_lt. lia. Qed.

Lemma Fmult (x y : f64) : fin x = true -> fin y = true -> Rabs (rndF (F2r x * F2r y)) < b2 1024 ->
  F2r (Bmult mode_NE x y) = rndF (F2r x * F2r y) /\ fin (Bmult mode_NE x y) = true.
Proof.
  intros Hx Hy H. pose proof (Bmult_correct 53 1024 _ _ mode_NE x y) as C.
  rewrite (Rlt_bool_true _ _ H) in C. destruct C as (C1 & C2 & _). rewrite Hx, Hy in C2. auto.
Qed.
Lemma Fmult_inv (x y : f64) : fin (Bmult mode_NE x y) = true ->
  F2r (Bmult mode_NE x y) = rndF (F2r x * F2r y) /\ fin x = true /\ fin y = true.
Proof.
  intros H. pose proof (Bmult_correct 53 1024 _ _ mode_NE x y) as C.
  destruct (Rlt_bool _ _).
  - destruct C as (C1 & C2 & _). rewrite H in C2. symmetry in C2. apply andb_true_iff in C2. tauto.
  - apply overflow_not_finite in C. congruence.
Qed.
Lemma Fplus (x y : f64) : fin x = true -> fin y = true -> Rabs (rndF (F2r x + F2r y)) < b2 1024 ->
  F2r (Bplus mode_NE x y) = rndF (F2r x + F2r y) /\ fin (Bplus mode_NE x y) = true.
Proof.
  intros Hx Hy H. pose proof (Bplus_correct 53 1024 _ _ mode_NE x y Hx Hy) as C.
  rewrite (Rlt_bool_true _ _ H) in C. tauto.
Qed.
Lemma Fplus_inv (x y : f64) : fin (Bplus mode_NE x y) = true ->
  F2r (Bplus mode_NE x y) = rndF (F2r x + F2r y) /\ fin x = true /\ fin y = true.
Proof.
  intros H.
  assert (F : fin x = true /\ fin y = true).
  { destruct x as [s|s| |s m e B], y as [s'|s'| |s' m' e' B']; simpl in *; auto; try discriminate; try (destruct s, s'; discriminate). }
  destruct F as [Hx Hy]. pose proof (Bplus_correct 53 1024 _ _ mode_NE x y Hx Hy) as C.
  destruct (Rlt_bool _ _).
  - tauto.
  - destruct C as [C _]. apply overflow_not_finite in C. congruence.
Qed.
Lemma Fminus_inv' (x y : f64) : fin (Bminus mode_NE x y) = true -> fin x = true /\ fin y = true.
Proof.
  intros H.
  destruct x as [s|s| |s m e B], y as [s'|s'| |s' m' e' B']; simpl in *; auto; try discriminate; try (destruct s, s'; discriminate).
Qed.
Lemma Fsqrt_inv (x : f64) : fin (Bsqrt mode_NE x) = true ->
  F2r (Bsqrt mode_NE x) = rndF (sqrt (F2r x)) /\ fin x = true.
Proof.
  intros H. pose proof (Bsqrt_correct 53 1024 _ _ mode_NE x) as (C1 & C2 & _). rewrite H in C2.
  split; auto. destruct x as [| | |[] ? ? ?]; auto; discriminate.
Qed.
Lemma Fsqrt (x : f64) : fin x = true -> 0 <= F2r x -> F2r (Bsqrt mode_NE x) = rndF (sqrt (F2r x)) /\ fin (Bsqrt mode_NE x) = true.
Proof.
  intros Hx H. pose proof (Bsqrt_correct 53 1024 _ _ mode_NE x) as (C1 & C2 & _). split; auto. rewrite C2.
  destruct x as [| | |[] m e B]; auto; try discriminate. exfalso.
  assert (F2r (B754_finite true m e B) < 0) by (apply F2R_lt_0; reflexivity). lra.
Qed.

(** the exact Euclidean distance between two points with double coordinates *)
Definition edistF (x y : vecF) : R :=
  sqrt ((F2r (vx x) - F2r (vx y)) ^ 2 + (F2r (vy x) - F2r (vy y)) ^ 2 + (F2r (vz x) - F2r (vz y)) ^ 2).

(** rounding analysis of the computed squared distance *)
Section Sq.
Variables X Y Z : R.
Let D2 := X ^ 2 + Y ^ 2 + Z ^ 2.
Notation h := (b2 (-1075)).
Notation K := (/ 281474976710656).     (* 2^-48 *)

Lemma h_pos : 0 < h. Proof. apply bpow_gt_0. Qed.

Lemma sq_err V a m : (exists e, Rabs e <= U /\ a = V * (1 + e)) -> (exists e g, Rabs e <= U /\ Rabs g <= h /\ m = a * a * (1 + e) + g) ->
  V ^ 2 * (1 - 4 * U) - h <= m <= V ^ 2 * (1 + 4 * U) + h.
Proof.
  intros (e & He & ->) (e' & g & He' & Hg & ->). apply Rabs_le_inv in He, He', Hg.
  assert (V2 : 0 <= V ^ 2) by apply pow2_ge_0.
  replace (V * (1 + e) * (V * (1 + e)) * (1 + e') + g) with (V ^ 2 * ((1 + e) ^ 2 * (1 + e')) + g) by ring.
  assert (B : 1 - 4 * U <= (1 + e) ^ 2 * (1 + e') <= 1 + 4 * U).
  { assert (A1 : (1 - U) ^ 2 <= (1 + e) ^ 2 <= (1 + U) ^ 2) by (split; apply pow_incr; lra).
    split.
    - apply Rle_trans with ((1 - U) ^ 2 * (1 - U)); [lra|]. apply Rmult_le_compat; lra.
    - apply Rle_trans with ((1 + U) ^ 2 * (1 + U)); [|lra]. apply Rmult_le_compat; try lra; apply pow2_ge_0. }
  split.
  - assert (V ^ 2 * (1 - 4 * U) <= V ^ 2 * ((1 + e) ^ 2 * (1 + e'))) by (apply Rmult_le_compat_l; lra). lra.
  - assert (V ^ 2 * ((1 + e) ^ 2 * (1 + e')) <= V ^ 2 * (1 + 4 * U)) by (apply Rmult_le_compat_l; lra). lra.
Qed.

Lemma sum_err mx my mz s1 s2 :
  X ^ 2 * (1 - 4 * U) - h <= mx <= X ^ 2 * (1 + 4 * U) + h ->
  Y ^ 2 * (1 - 4 * U) - h <= my <= Y ^ 2 * (1 + 4 * U) + h ->
  Z ^ 2 * (1 - 4 * U) - h <= mz <= Z ^ 2 * (1 + 4 * U) + h ->
  0 <= mx -> 0 <= my -> 0 <= mz ->
  (exists e, Rabs e <= U /\ s1 = (mx + my) * (1 + e)) -> (exists e, Rabs e <= U /\ s2 = (s1 + mz) * (1 + e)) ->
  D2 * (1 - K) - 4 * h <= s2 <= D2 * (1 + K) + 4 * h.
Proof.
  intros Hx Hy Hz Px Py Pz (e & He & ->) (e' & He' & ->). apply Rabs_le_inv in He, He'. pose proof h_pos.
  set (T := mx + my + mz).
  assert (T0 : 0 <= T) by (unfold T; lra).
  assert (TB : D2 * (1 - 4 * U) - 3 * h <= T <= D2 * (1 + 4 * U) + 3 * h) by (unfold T, D2; lra).
  assert (D0 : 0 <= D2). { unfold D2. pose proof (pow2_ge_0 X). pose proof (pow2_ge_0 Y). pose proof (pow2_ge_0 Z). lra. }
  assert (S1 : (mx + my) * (1 - U) <= (mx + my) * (1 + e) <= (mx + my) * (1 + U)) by (split; apply Rmult_le_compat_l; lra).
  assert (S2 : T * (1 - U) <= (mx + my) * (1 + e) + mz <= T * (1 + U)) by (unfold T; lra).
  set (S := (mx + my) * (1 + e) + mz) in *.
  assert (S0 : 0 <= S) by nra.
  assert (S3 : S * (1 - U) <= S * (1 + e') <= S * (1 + U)) by (split; apply Rmult_le_compat_l; lra).
  split; nra.
Qed.
End Sq.

Definition ediff2 (x y : vecF) : R :=
  (F2r (vx x) - F2r (vx y)) ^ 2 + (F2r (vy x) - F2r (vy y)) ^ 2 + (F2r (vz x) - F2r (vz y)) ^ 2.

Lemma minus_err (a b : f64) : fin (Bminus mode_NE a b) = true ->
  exists e, Rabs e <= U /\ F2r (Bminus mode_NE a b) = (F2r a - F2r b) * (1 + e).
Proof.
  intros H. destruct (Fminus_inv' _ _ H) as [Ha Hb]. destruct (Fminus_inv _ _ Ha Hb H) as [-> _].
  unfold Rminus. apply rnd_plus_err; [apply fmt|]. apply generic_format_opp, fmt.
Qed.

Lemma rnd_nonneg v : 0 <= v -> 0 <= rndF v.
Proof. intros. rewrite <- rndF_0. now apply rndF_le. Qed.

Lemma sqnorm_err (x y : vecF) : fin (vsqnorm (vsub x y)) = true ->
  0 <= F2r (vsqnorm (vsub x y)) /\
  ediff2 x y * (1 - / 281474976710656) - 4 * b2 (-1075) <= F2r (vsqnorm (vsub x y)) <= ediff2 x y * (1 + / 281474976710656) + 4 * b2 (-1075).
Proof.
  unfold vsqnorm, vdot, vsub. cbn [vx vy vz]. cbn [nadd nmul nsub F64]. intros H.
  apply Fplus_inv in H. destruct H as (V2 & H1 & Hz). apply Fplus_inv in H1. destruct H1 as (V1 & Hx & Hy).
  assert (M : forall a b : f64, fin (Bmult mode_NE (Bminus mode_NE a b) (Bminus mode_NE a b)) = true ->
     0 <= F2r (Bmult mode_NE (Bminus mode_NE a b) (Bminus mode_NE a b)) /\
     (F2r a - F2r b) ^ 2 * (1 - 4 * U) - b2 (-1075) <= F2r (Bmult mode_NE (Bminus mode_NE a b) (Bminus mode_NE a b))
       <= (F2r a - F2r b) ^ 2 * (1 + 4 * U) + b2 (-1075)).
  { intros a b Hm. apply Fmult_inv in Hm. destruct Hm as (Vm & Hd & _). split.
    - rewrite Vm. apply rnd_nonneg. apply (Rle_0_sqr (F2r (Bminus mode_NE a b))).
    - apply sq_err with (a := F2r (Bminus mode_NE a b)); [now apply minus_err|].
      rewrite Vm. destruct (rnd_err (F2r (Bminus mode_NE a b) * F2r (Bminus mode_NE a b))) as (e & g & He & Hg & E).
      eauto 6. }
  destruct (M _ _ Hx) as [Px Ex], (M _ _ Hy) as [Py Ey], (M _ _ Hz) as [Pz Ez].
  split.
  - rewrite V2. apply rnd_nonneg. rewrite V1. apply Rplus_le_le_0_compat; auto. apply rnd_nonneg. lra.
  - eapply sum_err; [exact Ex|exact Ey|exact Ez|exact Px|exact Py|exact Pz| |].
    + destruct (rnd_plus_err _ _ (fmt (Bmult mode_NE (Bminus mode_NE (vx x) (vx y)) (Bminus mode_NE (vx x) (vx y))))
        (fmt (Bmult mode_NE (Bminus mode_NE (vy x) (vy y)) (Bminus mode_NE (vy x) (vy y))))) as (e & He & E).
      exists e. split; auto. rewrite E in V1. exact V1.
    + destruct (rnd_plus_err _ _ (fmt (Bplus mode_NE (Bmult mode_NE (Bminus mode_NE (vx x) (vx y)) (Bminus mode_NE (vx x) (vx y)))
                (Bmult mode_NE (Bminus mode_NE (vy x) (vy y)) (Bminus mode_NE (vy x) (vy y)))))
        (fmt (Bmult mode_NE (Bminus mode_NE (vz x) (vz y)) (Bminus mode_NE (vz x) (vz y))))) as (e & He & E).
      exists e. split; auto. rewrite E in V2. exact V2.
Qed.

Notation K := (/ 281474976710656).
Notation t := (b2 (-535)).

Lemma t_sq : t * t = b2 (-1070).
Proof. rewrite <- bpow_plus. reflexivity. Qed.
Lemma h_small : 4 * b2 (-1075) <= b2 (-1070).
Proof.
  replace 4 with (b2 2) by (simpl; lra). rewrite <- bpow_plus. apply bpow_le. lia.
Qed.
Lemma h_t : b2 (-1075) <= K * t.
Proof. replace K with (b2 (-48)) by (simpl; lra). rewrite <- bpow_plus. apply bpow_le. lia. Qed.
Lemma t_pos : 0 < t. Proof. apply bpow_gt_0. Qed.

(** computed versus exact distance *)
Lemma dist_err (x y : vecF) : fin (vnorm (vsub x y)) = true ->
  let D := edistF x y in
  D * (1 - 3 * K) - 3 * t <= F2r (vnorm (vsub x y)) <= D * (1 + 3 * K) + 3 * t.
Proof.
  intros H D. unfold vnorm in *. cbn [nsqrt F64] in *. apply Fsqrt_inv in H. destruct H as (V & Hs).
  destruct (sqnorm_err _ _ Hs) as (S0 & SL & SU). rewrite V. set (s := F2r (vsqnorm (vsub x y))) in *.
  pose proof t_pos as TP. pose proof t_sq as TS. pose proof h_small as HS. pose proof h_t as HT.
  assert (D0 : 0 <= D) by apply sqrt_pos.
  assert (DD : D * D = ediff2 x y).
  { unfold D, edistF. apply sqrt_sqrt. repeat apply Rplus_le_le_0_compat; apply pow2_ge_0. }
  rewrite <- DD in *.
  set (q := sqrt s). assert (Q0 : 0 <= q) by apply sqrt_pos. assert (QQ : q * q = s) by (now apply sqrt_sqrt).
  assert (QU : q <= D * (1 + K) + t).
  { apply Rsqr_incr_0_var; [|nra]. unfold Rsqr. nra. }
  assert (QL : D * (1 - K) <= q + t).
  { apply Rsqr_incr_0_var; [|lra]. unfold Rsqr.
    assert (D * (1 - K) * (D * (1 - K)) <= D * D * (1 - K)) by nra. nra. }
  destruct (rnd_err q) as (e & g & He & Hg & E). fold q. rewrite E. apply Rabs_le_inv in He, Hg.
  assert (B : q * (1 - U) <= q * (1 + e) <= q * (1 + U)) by (split; apply Rmult_le_compat_l; lra).
  assert (UK : U <= K) by lra.
  split; nra.
Qed.

Lemma b2_add k : b2 k + b2 k = b2 (k + 1).
Proof. rewrite bpow_plus. simpl (b2 1). lra. Qed.
Lemma abs_le_of v k : 0 <= v <= b2 k -> Rabs v <= b2 k.
Proof. intros. rewrite Rabs_pos_eq; lra. Qed.

Lemma edist_axis (x y : vecF) : Rabs (F2r (vx x) - F2r (vx y)) <= edistF x y /\
  Rabs (F2r (vy x) - F2r (vy y)) <= edistF x y /\ Rabs (F2r (vz x) - F2r (vz y)) <= edistF x y.
Proof.
  unfold edistF. rewrite <- !sqrt_Rsqr_abs. unfold Rsqr.
  pose proof (pow2_ge_0 (F2r (vx x) - F2r (vx y))) as A1. pose proof (pow2_ge_0 (F2r (vy x) - F2r (vy y))) as A2.
  pose proof (pow2_ge_0 (F2r (vz x) - F2r (vz y))) as A3.
  set (a := F2r (vx x) - F2r (vx y)) in *. set (b := F2r (vy x) - F2r (vy y)) in *. set (c := F2r (vz x) - F2r (vz y)) in *.
  repeat split; apply sqrt_le_1_alt; simpl in *; lra.
Qed.

(** no overflow for points that are not astronomically far apart *)
Definition finite_vec (x : vecF) : Prop := fin (vx x) = true /\ fin (vy x) = true /\ fin (vz x) = true.

Lemma dist_finite (x y : vecF) : finite_vec x -> finite_vec y -> edistF x y <= b2 500 -> fin (vnorm (vsub x y)) = true.
Proof.
  intros (Fx & Fy & Fz) (Gx & Gy & Gz) HD. destruct (edist_axis x y) as (A1 & A2 & A3).
  assert (M : forall a b : f64, fin a = true -> fin b = true -> Rabs (F2r a - F2r b) <= b2 500 ->
     fin (Bmult mode_NE (Bminus mode_NE a b) (Bminus mode_NE a b)) = true /\
     0 <= F2r (Bmult mode_NE (Bminus mode_NE a b) (Bminus mode_NE a b)) <= b2 1000).
  { intros a b Ha Hb Hab.
    assert (R1 : Rabs (rndF (F2r a - F2r b)) <= b2 500) by (apply rnd_bounded; [lia|auto]).
    destruct (Fminus a b Ha Hb) as [V F]; [eapply Rle_lt_trans; [exact R1|apply b2_lt; lia]|].
    assert (S0 : 0 <= F2r (Bminus mode_NE a b) * F2r (Bminus mode_NE a b)) by (apply (Rle_0_sqr (F2r (Bminus mode_NE a b)))).
    assert (R2 : Rabs (F2r (Bminus mode_NE a b) * F2r (Bminus mode_NE a b)) <= b2 1000).
    { rewrite V, Rabs_mult. replace (b2 1000) with (b2 500 * b2 500) by (rewrite <- bpow_plus; reflexivity).
      apply Rmult_le_compat; auto; apply Rabs_pos. }
    assert (R3 := rnd_bounded _ 1000 ltac:(lia) R2).
    destruct (Fmult _ _ F F) as [Vm Fm]; [eapply Rle_lt_trans; [exact R3|apply b2_lt; lia]|].
    split; auto. rewrite Vm. split; [now apply rnd_nonneg|]. rewrite Rabs_pos_eq in R3; auto. now apply rnd_nonneg. }
  destruct (M (vx x) (vx y)) as [Mx Bx]; auto; [lra|]. destruct (M (vy x) (vy y)) as [My By]; auto; [lra|].
  destruct (M (vz x) (vz y)) as [Mz Bz]; auto; [lra|].
  unfold vnorm, vsqnorm, vdot, vsub. cbn [vx vy vz]. cbn [nadd nmul nsub nsqrt F64].
  set (mx := Bmult mode_NE (Bminus mode_NE (vx x) (vx y)) (Bminus mode_NE (vx x) (vx y))) in *.
  set (my := Bmult mode_NE (Bminus mode_NE (vy x) (vy y)) (Bminus mode_NE (vy x) (vy y))) in *.
  set (mz := Bmult mode_NE (Bminus mode_NE (vz x) (vz y)) (Bminus mode_NE (vz x) (vz y))) in *.
  pose proof (b2_add 1000) as B1. pose proof (b2_add 1001) as B2. simpl (1000 + 1)%Z in B1. simpl (1001 + 1)%Z in B2.
  assert (L1 : b2 1000 <= b2 1001) by (apply bpow_le; lia).
  assert (R1 : Rabs (rndF (F2r mx + F2r my)) <= b2 1001) by (apply rnd_bounded; [lia|]; apply abs_le_of; lra).
  destruct (Fplus mx my Mx My) as [V1 F1]; [eapply Rle_lt_trans; [exact R1|apply b2_lt; lia]|].
  assert (N1 : 0 <= rndF (F2r mx + F2r my)) by (apply rnd_nonneg; lra).
  rewrite Rabs_pos_eq in R1 by auto. rewrite <- V1 in *.
  assert (R2 : Rabs (rndF (F2r (Bplus mode_NE mx my) + F2r mz)) <= b2 1002) by (apply rnd_bounded; [lia|]; apply abs_le_of; lra).
  destruct (Fplus _ mz F1 Mz) as [V2 F2]; [eapply Rle_lt_trans; [exact R2|apply b2_lt; lia]|].
  apply Fsqrt; auto. rewrite V2. apply rnd_nonneg. lra.
Qed.

(** the rounded cell quotient is close to the exact one *)
Lemma qF_err (x lo re : f64) : radiusF re -> F2r lo <= F2r x -> fin x = true -> fin lo = true -> qF x lo re <= 2147483647 ->
  Rabs (qF x lo re - (F2r x - F2r lo) / F2r re) <= / 1100000.
Proof.
  intros Hr Hle Fx Fl Hq. pose proof (radius_pos _ Hr) as Rp. unfold qF in *.
  destruct (rnd_plus_err (F2r x) (- F2r lo) (fmt x) (generic_format_opp _ _ _ (fmt lo))) as (e1 & H1 & E1).
  fold (F2r x - F2r lo) in E1. rewrite E1 in *.
  destruct (rnd_err ((F2r x - F2r lo) * (1 + e1) / F2r re)) as (e2 & g & H2 & Hg & E2).
  rewrite E2 in *. clear E1 E2.
  replace ((F2r x - F2r lo) * (1 + e1) / F2r re * (1 + e2) + g) with ((F2r x - F2r lo) / F2r re * ((1 + e1) * (1 + e2)) + g) in * by (field; lra).
  assert (Q0 : 0 <= (F2r x - F2r lo) / F2r re) by (apply Rdiv_le_0_compat || (unfold Rdiv; apply Rmult_le_pos; [lra|left; now apply Rinv_0_lt_compat])).
  set (Q := (F2r x - F2r lo) / F2r re) in *.
  assert (G : b2 (-1075) <= / 1000000000). { apply Rle_trans with (b2 (-40)); [apply bpow_le; lia|simpl; lra]. }
  apply Rabs_le_inv in H1, H2, Hg.
  assert (B : 1 - 3 * U <= (1 + e1) * (1 + e2) <= 1 + 3 * U).
  { split.
    - apply Rle_trans with ((1 - U) * (1 - U)); [lra|]. apply Rmult_le_compat; lra.
    - apply Rle_trans with ((1 + U) * (1 + U)); [|lra]. apply Rmult_le_compat; lra. }
  set (c := (1 + e1) * (1 + e2)) in *.
  assert (Q * (1 - 3 * U) <= Q * c <= Q * (1 + 3 * U)) by (split; apply Rmult_le_compat_l; lra).
  assert (Q <= 2147483649) by nra.
  apply Rabs_le. split; nra.
Qed.

Lemma Zfloor_near' a b : Rabs (a - b) < 1 -> (Zfloor a - 1 <= Zfloor b <= Zfloor a + 1)%Z.
Proof.
  intros H. apply Rabs_def2 in H. destruct H.
  split.
  - assert (Zfloor (a - 1) <= Zfloor b)%Z by (apply Zfloor_le; lra).
    assert (E : Zfloor (a - 1) = (Zfloor a - 1)%Z).
    { apply Zfloor_imp. rewrite plus_IZR, minus_IZR. pose proof (Zfloor_lb a). pose proof (Zfloor_ub a). lra. }
    lia.
  - assert (Zfloor b <= Zfloor (a + 1))%Z by (apply Zfloor_le; lra).
    assert (E : Zfloor (a + 1) = (Zfloor a + 1)%Z).
    { apply Zfloor_imp. rewrite !plus_IZR. pose proof (Zfloor_lb a). pose proof (Zfloor_ub a). lra. }
    lia.
Qed.

Lemma near_cells_1 (x y lo re : f64) M : radiusF re -> fin x = true -> fin y = true -> fin lo = true ->
  F2r lo <= F2r x -> F2r lo <= F2r y ->
  (Zfloor (qF x lo re) <= M)%Z -> (Zfloor (qF y lo re) <= M)%Z -> (M + 3 <= int_max)%Z ->
  Rabs (F2r x - F2r y) <= (1 - / 524288) * F2r re ->
  (Zfloor (qF x lo re) - 1 <= Zfloor (qF y lo re) <= Zfloor (qF x lo re) + 1)%Z.
Proof.
  intros Hr Fx Fy Fl Hx Hy Mx My HM HD. pose proof (radius_pos _ Hr) as Rp.
  assert (B : forall v, (Zfloor v <= M)%Z -> v <= 2147483647).
  { intros v Hv. pose proof (Zfloor_ub v). apply IZR_le in Hv. unfold int_max in HM. apply IZR_le in HM. rewrite plus_IZR in HM. lra. }
  pose proof (qF_err x lo re Hr Hx Fx Fl (B _ Mx)) as E1. pose proof (qF_err y lo re Hr Hy Fy Fl (B _ My)) as E2.
  apply Zfloor_near'.
  assert (E3 : Rabs ((F2r x - F2r lo) / F2r re - (F2r y - F2r lo) / F2r re) <= 1 - / 524288).
  { replace ((F2r x - F2r lo) / F2r re - (F2r y - F2r lo) / F2r re) with ((F2r x - F2r y) / F2r re) by (field; lra).
    unfold Rdiv. rewrite Rabs_mult, (Rabs_pos_eq (/ F2r re)) by (left; now apply Rinv_0_lt_compat).
    apply Rmult_le_reg_r with (F2r re); auto. rewrite Rmult_assoc, Rinv_l by lra. lra. }
  apply Rabs_le_inv in E1, E2, E3. apply Rabs_def1; lra.
Qed.

Lemma grid_quotients re d n ns x : radiusF re -> proper_domainF d -> @grid_shape F64 re d n ns -> no_nan x -> @isInDomain F64 d x = true ->
  finite_vec x /\ F2r (xMin d) <= F2r (vx x) /\ F2r (yMin d) <= F2r (vy x) /\ F2r (zMin d) <= F2r (vz x) /\
  (Zfloor (qF (vx x) (xMin d) re) <= int_max - 3)%Z /\ (Zfloor (qF (vy x) (yMin d) re) <= int_max - 3)%Z /\
  (Zfloor (qF (vz x) (zMin d) re) <= int_max - 3)%Z.
Proof.
  intros Hre PD G Nn Din. destruct (numbers_pos_F _ _ _ _ Hre PD G) as (P1 & P2 & P3).
  destruct (cell_F _ _ _ _ _ Hre PD G Nn Din) as [_ C].
  destruct (in_domain_F _ _ PD Nn Din) as ((Fx & Bx) & (Fy & By) & (Fz & Bz)).
  destruct G. rewrite gs_num in gs_int. destruct gs_int as [_ Gi].
  destruct (factor_boundF _ _ _ P1 P2 P3 Gi) as (M1 & M2 & M3).
  unfold inner_grid, cellF in C. unfold finite_vec. repeat split; auto; try apply Bx; try apply By; try apply Bz; lia.
Qed.

Lemma near_F re d n ns (p q : partF) : radiusF re -> proper_domainF d -> @grid_shape F64 re d n ns ->
  no_nan (p_pos p) -> no_nan (p_pos q) -> isInDomain d (p_pos p) = true -> isInDomain d (p_pos q) = true ->
  edistF (p_pos p) (p_pos q) <= (1 - / 524288) * F2r re -> near_cells d re p q.
Proof.
  intros Hre PD G Np Nq Dp Dq HD.
  destruct (cell_F _ _ _ _ _ Hre PD G Np Dp) as [Cp _]. destruct (cell_F _ _ _ _ _ Hre PD G Nq Dq) as [Cq _].
  exists (cellF d re (p_pos p)), (cellF d re (p_pos q)). repeat split; auto.
  destruct (grid_quotients _ _ _ _ _ Hre PD G Np Dp) as ((F1 & F2 & F3) & L1 & L2 & L3 & Q1 & Q2 & Q3).
  destruct (grid_quotients _ _ _ _ _ Hre PD G Nq Dq) as ((F4 & F5 & F6) & L4 & L5 & L6 & Q4 & Q5 & Q6).
  destruct (edist_axis (p_pos p) (p_pos q)) as (A1 & A2 & A3).
  destruct PD as (D1 & D2 & D3 & D4 & D5 & D6 & _).
  pose proof (near_cells_1 _ _ _ _ (int_max - 3) Hre F1 F4 D1 L1 L4 Q1 Q4 ltac:(lia) ltac:(lra)).
  pose proof (near_cells_1 _ _ _ _ (int_max - 3) Hre F2 F5 D3 L2 L5 Q2 Q5 ltac:(lia) ltac:(lra)).
  pose proof (near_cells_1 _ _ _ _ (int_max - 3) Hre F3 F6 D5 L3 L6 Q3 Q6 ltac:(lia) ltac:(lra)).
  unfold cellF, around, three. apply in_flat_map. eexists. split; [|apply in_flat_map; eexists; split; [|apply in_map_iff; eexists; split; [reflexivity|]]].
  all: simpl; lia.
Qed.

Lemma edistF_sym x y : edistF x y = edistF y x.
Proof. unfold edistF. f_equal. ring. Qed.

(** both directions *)
Lemma computed_close re (p q : partF) : radiusF re -> b2 (-500) <= F2r re <= b2 500 ->
  finite_vec (p_pos p) -> finite_vec (p_pos q) -> edistF (p_pos p) (p_pos q) <= (1 - / 524288) * F2r re ->
  nlt (pdist p q) re = true.
Proof.
  intros [Fr Hr] RB Fp Fq HD. pose proof (radius_pos re (conj Fr Hr)) as Rp.
  assert (F : fin (pdist p q) = true). { unfold pdist. apply dist_finite; auto. rewrite edistF_sym. lra. }
  apply Flt_fin; auto. unfold pdist in *. pose proof (dist_err _ _ F) as E. cbv zeta in E. rewrite edistF_sym in E.
  assert (T : t <= / 1000000000 * F2r re).
  { apply Rle_trans with (b2 (-35) * b2 (-500)); [rewrite <- bpow_plus; apply bpow_le; lia|].
    apply Rmult_le_compat; try (left; apply bpow_gt_0); try lra. simpl; lra. }
  assert (0 <= edistF (p_pos p) (p_pos q)) by apply sqrt_pos. nra.
Qed.

Lemma listed_close re (p q : partF) : radiusF re -> b2 (-500) <= F2r re ->
  nlt (pdist p q) re = true -> fin (pdist p q) = true -> edistF (p_pos p) (p_pos q) <= (1 + / 524288) * F2r re.
Proof.
  intros [Fr Hr] RB HL F. apply Flt_fin in HL; auto. unfold pdist in *. pose proof (dist_err _ _ F) as E. cbv zeta in E. rewrite edistF_sym in E.
  pose proof (radius_pos re (conj Fr Hr)) as Rp.
  assert (T : t <= / 1000000000 * F2r re).
  { apply Rle_trans with (b2 (-35) * b2 (-500)); [rewrite <- bpow_plus; apply bpow_le; lia|].
    apply Rmult_le_compat; try (left; apply bpow_gt_0); try lra. simpl; lra. }
  assert (0 <= edistF (p_pos p) (p_pos q)) by apply sqrt_pos.
  apply Rnot_lt_le. intros C. nra.
Qed.

Lemma vnorm_not_neginf (v : vecF) (re : f64) : @nlt F64 (vnorm v) re = true -> fin re = true -> fin (vnorm v) = true.
Proof.
  unfold vnorm. cbn [nsqrt F64]. intros H Fr.
  destruct (@vsqnorm F64 v) as [s|s| |s m e B] eqn:E.
  - reflexivity.
  - destruct s.
    + exfalso. simpl in H. discriminate.
    + exfalso. simpl in H. destruct re as [[]|[]| |[]]; simpl in *; discriminate.
  - exfalso. simpl in H. discriminate.
  - destruct s.
    + exfalso. simpl in H. discriminate.
    + pose proof (Bsqrt_correct 53 1024 _ _ mode_NE (B754_finite false m e B)) as (_ & C & _). exact C.
Qed.
