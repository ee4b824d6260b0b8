(** * Facts about the binary64 instance *)
From Coq Require Import Reals Lra Psatz.
From Flocq Require Import Core Relative.
From Verif Require Export NumF BaseFacts.
Open Scope R_scope.

Notation fexp64 := (SpecFloat.fexp 53 1024).
Notation rndF := (round radix2 fexp64 (round_mode mode_NE)).
Notation fin := (is_finite (prec := 53) (emax := 1024)).
Notation F2r := (B2R (prec := 53) (emax := 1024)).

#[global] Instance valid64 : Valid_exp fexp64.
Proof. apply (fexp_correct 53 1024). reflexivity. Qed.

Lemma rndF_le x y : x <= y -> rndF x <= rndF y.
Proof. apply round_le; typeclasses eauto. Qed.
Lemma rndF_0 : rndF 0 = 0.
Proof. apply round_0; typeclasses eauto. Qed.
Lemma rndF_opp x : rndF (- x) = - rndF x.
Proof. apply round_NE_opp. Qed.
Lemma rndF_B2R (x : f64) : rndF (F2r x) = F2r x.
Proof. apply round_generic; [typeclasses eauto|]. apply generic_format_B2R. Qed.

Lemma F2r_bound (x : f64) : Rabs (F2r x) < bpow radix2 1024.
Proof. apply abs_B2R_lt_emax. Qed.

Lemma overflow_not_finite (x : f64) s : B2SF x = binary_overflow 53 1024 mode_NE s -> fin x = false.
Proof. destruct x; simpl; intros; try discriminate; auto. Qed.

Lemma Fminus (x y : f64) : fin x = true -> fin y = true -> Rabs (rndF (F2r x - F2r y)) < bpow radix2 1024 ->
  F2r (Bminus mode_NE x y) = rndF (F2r x - F2r y) /\ fin (Bminus mode_NE x y) = true.
Proof.
  intros Hx Hy H. pose proof (Bminus_correct 53 1024 _ _ mode_NE x y Hx Hy) as C.
  rewrite (Rlt_bool_true _ _ H) in C. tauto.
Qed.

Lemma Fminus_inv (x y : f64) : fin x = true -> fin y = true -> fin (Bminus mode_NE x y) = true ->
  F2r (Bminus mode_NE x y) = rndF (F2r x - F2r y) /\ Rabs (rndF (F2r x - F2r y)) < bpow radix2 1024.
Proof.
  intros Hx Hy H. pose proof (Bminus_correct 53 1024 _ _ mode_NE x y Hx Hy) as C.
  destruct (Rlt_bool_spec (Rabs (rndF (F2r x - F2r y))) (bpow radix2 1024)).
  - tauto.
  - destruct C as [C _]. apply overflow_not_finite in C. congruence.
Qed.

Lemma Fdiv_inv (x y : f64) : F2r y <> 0 -> fin (Bdiv mode_NE x y) = true ->
  F2r (Bdiv mode_NE x y) = rndF (F2r x / F2r y) /\ fin x = true /\ Rabs (rndF (F2r x / F2r y)) < bpow radix2 1024.
Proof.
  intros Hy H. pose proof (Bdiv_correct 53 1024 _ _ mode_NE x y Hy) as C.
  destruct (Rlt_bool_spec (Rabs (rndF (F2r x / F2r y))) (bpow radix2 1024)).
  - destruct C as (C1 & C2 & _). rewrite H in C2. auto.
  - apply overflow_not_finite in C. congruence.
Qed.

Lemma Fdiv (x y : f64) : F2r y <> 0 -> fin x = true -> Rabs (rndF (F2r x / F2r y)) < bpow radix2 1024 ->
  F2r (Bdiv mode_NE x y) = rndF (F2r x / F2r y) /\ fin (Bdiv mode_NE x y) = true.
Proof.
  intros Hy Hx H. pose proof (Bdiv_correct 53 1024 _ _ mode_NE x y Hy) as C.
  rewrite (Rlt_bool_true _ _ H) in C. destruct C as (C1 & C2 & _). rewrite Hx in C2. auto.
Qed.

Lemma Btrunc_Ztrunc (x : f64) : Btrunc x = Ztrunc (F2r x).
Proof.
  apply eq_IZR. rewrite (Btrunc_correct 53 1024 _ x).
  unfold round, scaled_mantissa, cexp, FIX_exp, F2R; simpl. rewrite !Rmult_1_r. reflexivity.
Qed.

(** comparisons *)
Lemma Flt_fin (x y : f64) : fin x = true -> fin y = true -> @nlt F64 x y = true <-> F2r x < F2r y.
Proof.
  intros Hx Hy. simpl. unfold Fcmp. rewrite Bcompare_correct by auto.
  destruct (Rcompare_spec (F2r x) (F2r y)); split; intros; auto; try discriminate; lra.
Qed.
Lemma Fle_fin (x y : f64) : fin x = true -> fin y = true -> @nle F64 x y = true <-> F2r x <= F2r y.
Proof.
  intros Hx Hy. simpl. unfold Fcmp. rewrite Bcompare_correct by auto.
  destruct (Rcompare_spec (F2r x) (F2r y)); split; intros; auto; try discriminate; lra.
Qed.
Lemma Flt_fin_false (x y : f64) : fin x = true -> fin y = true -> @nlt F64 x y = false <-> F2r y <= F2r x.
Proof.
  intros Hx Hy. pose proof (Flt_fin x y Hx Hy) as H.
  destruct (@nlt F64 x y); split; intros; auto; try discriminate.
  - assert (F2r x < F2r y) by tauto. lra.
  - destruct (Rlt_or_le (F2r x) (F2r y)) as [L|L]; auto. apply H in L. discriminate.
Qed.

(** between two finite doubles lie only finite doubles (and NaN) *)
Lemma between_fin (lo hi x : f64) : fin lo = true -> fin hi = true -> is_nan x = false ->
  @nlt F64 x lo = false -> @nlt F64 hi x = false -> fin x = true.
Proof.
  intros Hl Hh Hn H1 H2. destruct x as [s|s| |s m e]; simpl in *; auto; try discriminate.
  destruct s; [destruct lo as [[]|[]| |[]]|destruct hi as [[]|[]| |[]]]; simpl in *; try discriminate.
Qed.

(** (x - y)^2 = (y - x)^2 bit for bit *)
Lemma Bmult_abs (a : f64) : Bmult mode_NE a a = Bmult mode_NE (Babs a) (Babs a).
Proof.
  destruct a as [s|s| |s m e H]; try (simpl; now destruct s); [reflexivity|].
  apply B2SF_inj. unfold Bmult, Babs. rewrite !B2SF_SF2B. now destruct s.
Qed.

Lemma Babs_minus_sym (x y : f64) : Babs (Bminus mode_NE x y) = Babs (Bminus mode_NE y x).
Proof.
  destruct (fin x) eqn:Hx; destruct (fin y) eqn:Hy.
  - pose proof (Bminus_correct 53 1024 _ _ mode_NE x y Hx Hy) as C1.
    pose proof (Bminus_correct 53 1024 _ _ mode_NE y x Hy Hx) as C2.
    replace (F2r y - F2r x) with (- (F2r x - F2r y)) in C2 by ring.
    rewrite rndF_opp, Rabs_Ropp in C2.
    destruct (Rlt_bool _ _).
    + destruct C1 as (R1 & F1 & _), C2 as (R2 & F2 & _).
      apply B2R_Bsign_inj.
      * now rewrite is_finite_Babs.
      * now rewrite is_finite_Babs.
      * rewrite !B2R_Babs, R1, R2, Rabs_Ropp. reflexivity.
      * destruct (Bminus mode_NE x y), (Bminus mode_NE y x); simpl in *; try discriminate; auto.
    + destruct C1 as [C1 _], C2 as [C2 _].
      destruct (Bminus mode_NE x y), (Bminus mode_NE y x); simpl in *; try discriminate; auto.
  - destruct y; try discriminate; destruct x; try discriminate; reflexivity.
  - destruct x; try discriminate; destruct y; try discriminate; reflexivity.
  - destruct x as [|[]| |], y as [|[]| |]; try discriminate; reflexivity.
Qed.

Lemma sq_minus_sym (x y : f64) :
  Bmult mode_NE (Bminus mode_NE x y) (Bminus mode_NE x y) = Bmult mode_NE (Bminus mode_NE y x) (Bminus mode_NE y x).
Proof. rewrite Bmult_abs, Babs_minus_sym, <- Bmult_abs. reflexivity. Qed.
