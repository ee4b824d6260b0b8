(** * Bounds of the implicit pressures (C84) *)
From Coq Require Import Reals Lra PeanoNat.
From Verif Require Import StepFacts.
From Verif Require Export SymStepR SpecBound SpecApartR SpecSym.
Open Scope R_scope.
#[local] Remove Hints F64 : typeclass_instances.

Lemma max_principle_le (ps : list partR) (D : nat -> R) (a : nat -> nat -> partR -> R) k : 0 < k ->
  (forall i p j q, nth_error ps i = Some p -> nth_error ps j = Some q -> j <> i -> p_type q <> Ghost -> 0 < D i -> 0 <= a i j q) ->
  (forall i p, nth_error ps i = Some p -> 0 < D i -> sum_others ps i (fun j q => a i j q * (D i - D j)) + k * D i <= 0) ->
  forall i, (i < List.length ps)%nat -> D i <= 0.
Proof.
  intros K A E i Hi. destruct (List.length ps) as [|n] eqn:LN; [lia|]. destruct (argmax D n) as (m & Hm & M). apply Rle_trans with (D m); [apply M; lia|].
  destruct (Rle_dec (D m) 0) as [l|l]; [exact l|exfalso]. assert (N0 : 0 < D m) by lra.
  destruct (nth_error ps m) as [p|] eqn:P; [|apply nth_error_None in P; lia]. specialize (E m p P N0).
  assert (0 <= sum_others ps m (fun j q => a m j q * (D m - D j))).
  { unfold sum_others. apply rsum_nonneg. intros v V. apply in_map_iff in V. destruct V as (j & <- & J). apply in_seq in J. destruct (nth_error ps j) as [q|] eqn:Q; [|lra].
    destruct (Nat.eqb_spec j m); [simpl; lra|]. destruct (Z.eqb_spec (p_type q) Ghost); [simpl; lra|]. cbn [orb]. apply Rmult_le_pos; [now apply (A m p)|]. assert (D j <= D m) by (apply M; lia). lra. }
  assert (0 < k * D m) by (apply Rmult_lt_0_compat; lra). lra.
Qed.
Lemma sum_others_nonpos ps i g : (forall j q, nth_error ps j = Some q -> j <> i -> p_type q <> Ghost -> g j q <= 0) -> sum_others ps i g <= 0.
Proof.
  intros H. unfold sum_others. apply Ropp_le_cancel. rewrite Ropp_0. rewrite <- (Rmult_1_l (rsum _)), Ropp_mult_distr_l, <- rsum_mul. apply rsum_nonneg. intros v V. apply in_map_iff in V. destruct V as (j & <- & J).
  destruct (nth_error ps j) as [q|] eqn:Q; [|lra]. destruct (Nat.eqb_spec j i); [simpl; lra|]. destruct (Z.eqb_spec (p_type q) Ghost); [simpl; lra|]. cbn [orb]. specialize (H j q Q n n0). lra.
Qed.
Lemma sum_others_negative ps i g j q : (forall j q, nth_error ps j = Some q -> j <> i -> p_type q <> Ghost -> g j q <= 0) ->
  nth_error ps j = Some q -> j <> i -> p_type q <> Ghost -> g j q < 0 -> sum_others ps i g < 0.
Proof.
  intros H Q N G L. set (h := fun k r => if Nat.eqb k j then 0 else g k r).
  assert (E : sum_others ps i g = sum_others ps i h + g j q).
  { unfold sum_others. assert (J : (j < List.length ps)%nat) by (apply nth_error_Some; congruence). assert (K := PressureR.pick (fun _ => g j q) (List.length ps) (Z.of_nat j) ltac:(lia)). cbv beta in K. rewrite <- K.
    rewrite <- rsum_add. apply rsum_ext. intros k _. destruct (Z.eqb_spec (Z.of_nat j) (Z.of_nat k)) as [e|e].
    - apply Nat2Z.inj in e. subst k. rewrite Q. destruct (Nat.eqb_spec j i); [contradiction|]. destruct (Z.eqb_spec (p_type q) Ghost); [contradiction|]. cbn [orb]. unfold h. rewrite Nat.eqb_refl. ring.
    - destruct (nth_error ps k) as [r|]; [|ring]. unfold h. destruct (Nat.eqb_spec k j); [subst; lia|]. destruct (_ || _); ring. }
  rewrite E. assert (sum_others ps i h <= 0); [|lra]. apply sum_others_nonpos. intros k r R NK GR. unfold h. destruct (Nat.eqb_spec k j); [lra|now apply H].
Qed.
Lemma argmax_where (P : nat -> Prop) (D : nat -> R) n : (exists i, (i < n)%nat /\ P i) -> exists i, (i < n)%nat /\ P i /\ forall j, (j < n)%nat -> P j -> D j <= D i.
Proof.
  induction n as [|n IH]; [intros (i & H & _); lia|]. intros (i0 & H0 & P0). destruct (Classical_Prop.classic (exists i, (i < n)%nat /\ P i)) as [X|X].
  - destruct (IH X) as (i & Hi & Pi & M). destruct (Classical_Prop.classic (P n /\ D i < D n)) as [(Pn & L)|Y].
    + exists n. split; [lia|]. split; [exact Pn|]. intros j J Pj. destruct (Nat.eq_dec j n) as [->|]; [lra|]. assert (D j <= D i) by (apply M; [lia|exact Pj]). lra.
    + exists i. split; [lia|]. split; [exact Pi|]. intros j J Pj. destruct (Nat.eq_dec j n) as [->|]; [|apply M; [lia|exact Pj]]. destruct (Rle_dec (D n) (D i)); [assumption|]. exfalso. apply Y. split; [exact Pj|lra].
  - assert (i0 = n) by (destruct (Nat.eq_dec i0 n); [assumption|]; exfalso; apply X; exists i0; split; [lia|exact P0]). subst i0.
    exists n. split; [lia|]. split; [exact P0|]. intros j J Pj. destruct (Nat.eq_dec j n) as [->|]; [lra|]. exfalso. apply X. exists j. split; [lia|exact Pj].
Qed.

Section Bound.
Variables (det : @detector Rnum) (q : @ppe Rnum) (rs : R).
Hypotheses (CO : 0 < q_compress q) (DT : q_dt q <> 0) (NL : 0 < q_n0L q) (LA : 0 < q_lambda q) (DI : (0 <= q_dim q)%Z).
Let kc := q_compress q / q_dt q ^ 2.
Let co := 2 * IZR (q_dim q) / (q_n0L q * q_lambda q).
Lemma dt2 : 0 < q_dt q ^ 2.
Proof using DT. rewrite <- Rsqr_pow2. now apply Rsqr_pos_lt. Qed.
Lemma kc_pos : 0 < kc.
Proof using CO DT. unfold kc, Rdiv. apply Rmult_lt_0_compat; [exact CO|]. apply Rinv_0_lt_compat, dt2. Qed.
Lemma co_nonneg : 0 <= co.
Proof using NL LA DI.
  unfold co, Rdiv. apply Rmult_le_pos; [assert (HZ : 0 <= IZR (q_dim q)) by (now apply IZR_le); lra|]. left. apply Rinv_0_lt_compat, Rmult_lt_0_compat; assumption.
Qed.
(** the equations of the particles, in x *)
Definition balanced (ps : list partR) (x : nat -> R) : Prop := forall i p, nth_error ps i = Some p ->
  (~ solved_for det rs ps i p -> x i = 0) /\
  (solved_for det rs ps i p -> sum_others ps i (fun j r => if (p_type r =? DummyWall)%Z then 0 else co * w_spec (q_reL q) (euclid (p_pos p) (p_pos r)) / p_dens p * (x i - x j))
     + kc * x i = q_gamma q / q_dt q ^ 2 * compression (q_n0N q) p).
Definition link (ps : list partR) i (j : nat) (r : partR) : R :=
  match nth_error ps i with Some p => if (p_type r =? DummyWall)%Z then 0 else co * w_spec (q_reL q) (euclid (p_pos p) (p_pos r)) / p_dens p | None => 0 end.
Lemma balanced_link ps x i p : balanced ps x -> nth_error ps i = Some p -> solved_for det rs ps i p ->
  sum_others ps i (fun j r => link ps i j r * (x i - x j)) + kc * x i = q_gamma q / q_dt q ^ 2 * compression (q_n0N q) p.
Proof.
  intros B P I. rewrite <- (proj2 (B i p P) I). f_equal. apply sum_others_ext. intros j r R N G. unfold link. rewrite P. destruct (p_type r =? DummyWall)%Z; ring.
Qed.
Lemma balanced_inner ps x i p : balanced ps x -> nth_error ps i = Some p -> x i <> 0 -> solved_for det rs ps i p.
Proof. intros B P N. destruct (Classical_Prop.classic (solved_for det rs ps i p)) as [I|I]; [exact I|]. exfalso. apply N. now apply (B i p P). Qed.
Section Positive.
Variable ps : list partR.
Hypotheses (AP : apart ps) (DP : forall i p, nth_error ps i = Some p -> p_type p <> Ghost -> p_type p <> DummyWall -> 0 < p_dens p).
Lemma link_nonneg i p j r : nth_error ps i = Some p -> solved_for det rs ps i p -> nth_error ps j = Some r -> j <> i -> p_type r <> Ghost -> 0 <= link ps i j r.
Proof using AP DP NL LA DI.
  intros P (Gp & Wp & _) R N G. unfold link. rewrite P. destruct (p_type r =? DummyWall)%Z; [lra|].
  assert (0 < p_dens p) by now apply (DP i). assert (0 < euclid (p_pos p) (p_pos r)) by (apply euclid_pos; apply (AP i j p r P R); auto).
  unfold Rdiv. apply Rmult_le_pos; [apply Rmult_le_pos; [apply co_nonneg|now apply w_spec_nonneg]|left; now apply Rinv_0_lt_compat].
Qed.
Lemma bounded x C : balanced ps x -> 0 <= C -> (forall i p, nth_error ps i = Some p -> solved_for det rs ps i p -> q_gamma q * compression (q_n0N q) p <= q_compress q * C) ->
  forall i, (i < List.length ps)%nat -> x i <= C.
Proof using AP DP CO DT NL LA DI.
  intros B HC H i Hi. cut (x i - C <= 0); [lra|]. apply (max_principle_le ps (fun i => x i - C) (link ps) kc kc_pos); [| |exact Hi].
  - intros i0 p j r P R N G D. apply (link_nonneg i0 p); auto. apply (balanced_inner _ x); auto. lra.
  - intros i0 p P D. assert (I : solved_for det rs ps i0 p) by (apply (balanced_inner _ x); auto; lra). assert (E := balanced_link _ _ _ _ B P I).
    rewrite (sum_others_ext ps i0 _ (fun j r => link ps i0 j r * (x i0 - x j))) by (intros; ring). assert (HI := H i0 p P I).
    assert (K : q_gamma q / q_dt q ^ 2 * compression (q_n0N q) p <= kc * C).
    { unfold kc, Rdiv. replace (q_gamma q * / q_dt q ^ 2 * compression (q_n0N q) p) with (q_gamma q * compression (q_n0N q) p * / q_dt q ^ 2) by ring. replace (q_compress q * / q_dt q ^ 2 * C) with (q_compress q * C * / q_dt q ^ 2) by ring.
      apply Rmult_le_compat_r; [left; apply Rinv_0_lt_compat, dt2|exact HI]. }
    lra.
Qed.
(** *** where the pressures are positive *)
Section Support.
Hypotheses (GA : 0 < q_gamma q) (N0 : 0 < q_n0N q) (DM : (0 < q_dim q)%Z) (NN : forall i p, nth_error ps i = Some p -> solved_for det rs ps i p -> q_n0N q <= p_nd p).
Variable x : nat -> R.
Hypothesis B : balanced ps x.
Lemma source_nonneg i p : nth_error ps i = Some p -> solved_for det rs ps i p -> 0 <= q_gamma q / q_dt q ^ 2 * compression (q_n0N q) p.
Proof using GA N0 NN DT.
  intros P I. apply Rmult_le_pos; [left; apply Rdiv_lt_0_compat; [exact GA|apply dt2]|]. unfold compression, Rdiv. apply Rmult_le_pos; [specialize (NN i p P I); lra|left; now apply Rinv_0_lt_compat].
Qed.
Lemma support_nonneg i : (i < List.length ps)%nat -> 0 <= x i.
Proof using All.
  intros Hi. cut (- x i <= 0); [lra|]. apply (max_principle_le ps (fun i => - x i) (link ps) kc kc_pos); [| |exact Hi].
  - intros i0 p j r P R N G D. apply (link_nonneg i0 p); auto. apply (balanced_inner _ x); auto. lra.
  - intros i0 p P D. assert (I : solved_for det rs ps i0 p) by (apply (balanced_inner _ x); auto; lra). assert (E := balanced_link _ _ _ _ B P I). assert (S := source_nonneg i0 p P I).
    rewrite (sum_others_ext ps i0 _ (fun j r => - (link ps i0 j r * (x i0 - x j)))) by (intros; ring). rewrite sum_others_opp. lra.
Qed.
Lemma fed_lt i : fed det rs (q_n0N q) (q_reL q) ps i -> (i < List.length ps)%nat.
Proof. intros []; apply nth_error_Some; congruence. Qed.
Lemma fed_inner i : fed det rs (q_n0N q) (q_reL q) ps i -> exists p, nth_error ps i = Some p /\ solved_for det rs ps i p.
Proof. intros []; eauto. Qed.
Lemma fed_positive i : fed det rs (q_n0N q) (q_reL q) ps i -> 0 < x i.
Proof using All.
  assert (Z : forall i p, nth_error ps i = Some p -> x i = 0 -> forall j r, nth_error ps j = Some r -> j <> i -> p_type r <> Ghost -> solved_for det rs ps i p -> link ps i j r * (x i - x j) <= 0).
  { intros i0 p P X j r R N G I. assert (0 <= x j) by (apply support_nonneg; apply nth_error_Some; congruence). assert (L := link_nonneg i0 p j r P I R N G). rewrite X. replace (link ps i0 j r * (0 - x j)) with (- (link ps i0 j r * x j)) by ring. assert (0 <= link ps i0 j r * x j) by (now apply Rmult_le_pos). lra. }
  intros F. induction F as [i p P I C|i p j r P I R N NE F IH].
  - assert (X := support_nonneg i ltac:(apply nth_error_Some; congruence)). destruct (Req_dec (x i) 0) as [X0|]; [exfalso|lra]. assert (E := balanced_link _ _ _ _ B P I). assert (KX : kc * x i = 0) by (rewrite X0; ring).
    assert (S : sum_others ps i (fun j r => link ps i j r * (x i - x j)) <= 0) by (apply sum_others_nonpos; intros j r R NJ G; now apply (Z i p P X0)).
    assert (0 < q_gamma q / q_dt q ^ 2 * compression (q_n0N q) p); [|lra]. apply Rmult_lt_0_compat; [apply Rdiv_lt_0_compat; [exact GA|apply dt2]|]. unfold compression. apply Rdiv_lt_0_compat; lra.
  - assert (X := support_nonneg i ltac:(apply nth_error_Some; congruence)). destruct (Req_dec (x i) 0) as [X0|]; [exfalso|lra]. assert (E := balanced_link _ _ _ _ B P I). assert (KX : kc * x i = 0) by (rewrite X0; ring). assert (SN := source_nonneg i p P I).
    destruct (fed_inner j F) as (r' & R' & (Gr & Wr & _)). assert (r' = r) by congruence. subst r'. pose proof I as (Gp & Wp & _).
    assert (S : sum_others ps i (fun j r => link ps i j r * (x i - x j)) < 0); [|lra].
    apply (sum_others_negative ps i _ j r); auto; [intros; now apply (Z i p P X0)|]. rewrite X0. replace (link ps i j r * (0 - x j)) with (- (link ps i j r * x j)) by ring. cut (0 < link ps i j r * x j); [lra|]. apply Rmult_lt_0_compat; [|exact IH].
    unfold link. rewrite P. destruct (Z.eqb_spec (p_type r) DummyWall); [contradiction|]. assert (0 < p_dens p) by now apply (DP i). assert (0 < euclid (p_pos p) (p_pos r)) by (apply euclid_pos; apply (AP i j p r P R); auto).
    apply Rdiv_lt_0_compat; [|assumption]. apply Rmult_lt_0_compat; [|now apply w_pos]. unfold co. apply Rdiv_lt_0_compat; [|now apply Rmult_lt_0_compat]. assert (0 < IZR (q_dim q)) by (now apply IZR_lt). lra.
Qed.
Lemma positive_fed i : (i < List.length ps)%nat -> 0 < x i -> fed det rs (q_n0N q) (q_reL q) ps i.
Proof using All.
  intros Hi X. destruct (Classical_Prop.classic (fed det rs (q_n0N q) (q_reL q) ps i)) as [F|F]; [exact F|exfalso].
  destruct (argmax_where (fun i => ~ fed det rs (q_n0N q) (q_reL q) ps i) x (List.length ps) (ex_intro _ i (conj Hi F))) as (m & Hm & NF & M).
  assert (XM : 0 < x m) by (specialize (M i Hi F); lra). destruct (nth_error ps m) as [p|] eqn:P; [|apply nth_error_None in P; lia].
  assert (I : solved_for det rs ps m p) by (apply (balanced_inner _ x); auto; lra). assert (E := balanced_link _ _ _ _ B P I).
  assert (C : q_gamma q / q_dt q ^ 2 * compression (q_n0N q) p = 0).
  { assert (p_nd p = q_n0N q). { assert (G := NN m p P I). destruct (Rle_lt_or_eq_dec _ _ G) as [L|L]; [|auto]. exfalso. apply NF. now apply (fed_self _ _ _ _ _ m p). } unfold compression. rewrite H. unfold Rdiv. ring. }
  assert (S : 0 <= sum_others ps m (fun j r => link ps m j r * (x m - x j))).
  { rewrite <- (Ropp_involutive (sum_others _ _ _)), <- sum_others_opp. cut (sum_others ps m (fun j r => - (link ps m j r * (x m - x j))) <= 0); [lra|]. apply sum_others_nonpos. intros j r R N G.
    assert (L := link_nonneg m p j r P I R N G). destruct (Classical_Prop.classic (fed det rs (q_n0N q) (q_reL q) ps j)) as [FJ|FJ].
    - assert (Z : link ps m j r = 0); [|rewrite Z; lra]. unfold link. rewrite P. destruct (p_type r =? DummyWall)%Z; [reflexivity|].
      destruct (Rlt_dec (euclid (p_pos p) (p_pos r)) (q_reL q)) as [l|l]; [exfalso; apply NF; apply (fed_next _ _ _ _ _ m p j r); auto|]. rewrite w_out by lra. unfold Rdiv. ring.
    - assert (x j <= x m) by (apply M; [apply nth_error_Some; congruence|exact FJ]). assert (0 <= link ps m j r * (x m - x j)) by (apply Rmult_le_pos; lra). lra. }
  assert (0 < kc * x m) by (apply Rmult_lt_0_compat; [apply kc_pos|exact XM]). lra.
Qed.
End Support.
End Positive.
Lemma compared ps qs x y : apart ps -> (forall i p, nth_error ps i = Some p -> p_type p <> Ghost -> p_type p <> DummyWall -> 0 < p_dens p) ->
  0 <= q_gamma q -> 0 < q_n0N q -> denser det rs ps qs -> balanced ps x -> balanced qs y -> forall i, (i < List.length ps)%nat -> x i <= y i.
Proof using CO DT NL LA DI.
  intros AP DP GA N0 (LN & DE) BX BY i Hi. cut (x i - y i <= 0); [lra|].
  assert (OTHER : forall i p, nth_error ps i = Some p -> exists r, nth_error qs i = Some r).
  { intros i0 p P. destruct (nth_error qs i0) as [r|] eqn:R; [eauto|]. apply nth_error_None in R. assert (i0 < List.length ps)%nat by (apply nth_error_Some; congruence). lia. }
  assert (INN : forall i p, nth_error ps i = Some p -> 0 < x i - y i -> solved_for det rs ps i p).
  { intros i0 p P D. destruct (OTHER i0 p P) as (r & R). destruct (DE i0 p r P R) as (_ & _ & _ & _ & II). destruct (Classical_Prop.classic (solved_for det rs ps i0 p)) as [I|I]; [exact I|exfalso].
    rewrite (proj1 (BX i0 p P) I), (proj1 (BY i0 r R) (fun Z => I (proj2 II Z))) in D. lra. }
  apply (max_principle_le ps (fun i => x i - y i) (link ps) kc kc_pos); [| |exact Hi].
  - intros i0 p j r P R N G D. apply (link_nonneg ps AP DP i0 p); auto.
  - intros i0 p P D. assert (I := INN i0 p P D). destruct (OTHER i0 p P) as (r & R). destruct (DE i0 p r P R) as (T & X & DD & ND & II).
    assert (E1 := balanced_link _ _ _ _ BX P I). assert (E2 := balanced_link _ _ _ _ BY R (proj1 II I)).
    assert (S : sum_others qs i0 (fun j s => link qs i0 j s * (y i0 - y j)) = sum_others ps i0 (fun j s => link ps i0 j s * (y i0 - y j))).
    { unfold sum_others. rewrite LN. apply rsum_ext. intros j J. destruct (nth_error ps j) as [u|] eqn:U.
      - destruct (OTHER j u U) as (v & V). rewrite V. destruct (DE j u v U V) as (T' & X' & _). rewrite T'. destruct (_ || _); [reflexivity|]. unfold link. rewrite P, R, T', X', X, DD. reflexivity.
      - apply nth_error_None in U. destruct (nth_error qs j) as [v|] eqn:V; [|reflexivity]. assert (j < List.length qs)%nat by (apply nth_error_Some; congruence). lia. }
    rewrite (sum_others_ext ps i0 _ (fun j r => link ps i0 j r * (x i0 - x j) - link ps i0 j r * (y i0 - y j))) by (intros; ring). rewrite <- sum_others_sub, <- S.
    assert (K : q_gamma q / q_dt q ^ 2 * compression (q_n0N q) p <= q_gamma q / q_dt q ^ 2 * compression (q_n0N q) r).
    { apply Rmult_le_compat_l; [unfold Rdiv; apply Rmult_le_pos; [exact GA|left; apply Rinv_0_lt_compat, dt2]|]. unfold compression, Rdiv. apply Rmult_le_compat_r; [left; now apply Rinv_0_lt_compat|lra]. }
    lra.
Qed.
End Bound.

(** ** the calculation *)
Lemma calc_balanced (S : @solver Rnum) det q rs (ps ps' : list partR) y : listed rs ps -> indexed ps -> apart ps -> q_reL q <= rs -> exact_solver S ->
  implicitCalc S det q ps = Ok (ps', y) ->
  List.length y = List.length ps /\ exists x, balanced det q rs ps x /\ forall i, (i < List.length ps)%nat -> nth_error y i = Some (Rmax 0 (x i)).
Proof.
  intros L I A Hr ES H. destruct (implicit_solved S det q rs ps ps' y L I A Hr ES H) as (_ & LY & x & HX). split; [exact LY|]. exists x. split.
  - intros i p P. exact (proj2 (HX i p P)).
  - intros i Hi. destruct (nth_error ps i) as [p|] eqn:P; [|apply nth_error_None in P; lia]. exact (proj1 (HX i p P)).
Qed.
Lemma bound_lemma (S : @solver Rnum) det q rs (ps ps' : list partR) y C : listed rs ps -> indexed ps -> apart ps -> q_reL q <= rs -> exact_solver S ->
  0 < q_compress q -> q_dt q <> 0 -> 0 < q_n0L q -> 0 < q_lambda q -> (0 <= q_dim q)%Z ->
  (forall p, In p ps -> p_type p <> Ghost -> p_type p <> DummyWall -> 0 < p_dens p) ->
  implicitCalc S det q ps = Ok (ps', y) -> 0 <= C ->
  (forall i p, nth_error ps i = Some p -> solved_for det rs ps i p -> q_gamma q * compression (q_n0N q) p <= q_compress q * C) ->
  forall v, In v y -> v <= C.
Proof.
  intros L I A Hr ES CO DT NL LA DI DP H HC HB v Hv. destruct (calc_balanced S det q rs ps ps' y L I A Hr ES H) as (LY & x & B & N). apply In_nth_error in Hv. destruct Hv as (i & Hv).
  assert (Hi : (i < List.length ps)%nat) by (rewrite <- LY; apply nth_error_Some; congruence). rewrite (N i Hi) in Hv. injection Hv as <-.
  apply Rmax_lub; [exact HC|]. apply (bounded det q rs CO DT NL LA DI ps A); auto. intros j p P. apply DP. eapply nth_error_In; eauto.
Qed.
Lemma support_lemma (S : @solver Rnum) det q rs (ps ps' : list partR) y : listed rs ps -> indexed ps -> apart ps -> q_reL q <= rs -> exact_solver S ->
  0 < q_compress q -> q_dt q <> 0 -> 0 < q_n0L q -> 0 < q_lambda q -> (0 < q_dim q)%Z -> 0 < q_gamma q -> 0 < q_n0N q ->
  (forall p, In p ps -> p_type p <> Ghost -> p_type p <> DummyWall -> 0 < p_dens p) ->
  (forall i p, nth_error ps i = Some p -> solved_for det rs ps i p -> q_n0N q <= p_nd p) ->
  implicitCalc S det q ps = Ok (ps', y) -> forall i v, nth_error y i = Some v -> (0 < v <-> fed det rs (q_n0N q) (q_reL q) ps i).
Proof.
  intros L I A Hr ES CO DT NL LA DI GA N0 DP NN H i v Hv. destruct (calc_balanced S det q rs ps ps' y L I A Hr ES H) as (LY & x & B & N).
  assert (Hi : (i < List.length ps)%nat) by (rewrite <- LY; apply nth_error_Some; congruence). rewrite (N i Hi) in Hv. injection Hv as <-.
  assert (DP' : forall j p, nth_error ps j = Some p -> p_type p <> Ghost -> p_type p <> DummyWall -> 0 < p_dens p) by (intros j p P; apply DP; eapply nth_error_In; eauto). assert (DI' : (0 <= q_dim q)%Z) by lia.
  split.
  - intros V. apply (positive_fed det q rs CO DT NL LA DI' ps A DP' GA N0 DI NN x B i Hi). unfold Rmax in V. destruct (Rle_dec 0 (x i)); lra.
  - intros F. assert (X := fed_positive det q rs CO DT NL LA DI' ps A DP' GA N0 DI NN x B i F). unfold Rmax. destruct (Rle_dec 0 (x i)); lra.
Qed.
Lemma monotone_lemma (S1 S2 : @solver Rnum) det q rs (ps ps' qs qs' : list partR) y z : listed rs ps -> indexed ps -> apart ps -> listed rs qs -> indexed qs -> q_reL q <= rs -> exact_solver S1 -> exact_solver S2 ->
  0 < q_compress q -> q_dt q <> 0 -> 0 < q_n0L q -> 0 < q_lambda q -> (0 <= q_dim q)%Z -> 0 <= q_gamma q -> 0 < q_n0N q ->
  (forall p, In p ps -> p_type p <> Ghost -> p_type p <> DummyWall -> 0 < p_dens p) -> denser det rs ps qs ->
  implicitCalc S1 det q ps = Ok (ps', y) -> implicitCalc S2 det q qs = Ok (qs', z) -> Forall2 Rle y z.
Proof.
  intros L I A L2 I2 Hr E1 E2 CO DT NL LA DI GA N0 DP DE H1 H2.
  assert (A2 : apart qs).
  { intros i j p r P R N TP TR. destruct DE as (LN & DE). destruct (nth_error ps i) as [a|] eqn:EA; [|apply nth_error_None in EA; assert (i < List.length qs)%nat by (apply nth_error_Some; congruence); lia].
    destruct (nth_error ps j) as [b|] eqn:EB; [|apply nth_error_None in EB; assert (j < List.length qs)%nat by (apply nth_error_Some; congruence); lia].
    destruct (DE i a p EA P) as (T1 & X1 & _). destruct (DE j b r EB R) as (T2 & X2 & _). rewrite X1, X2. apply (A i j); congruence. }
  destruct (calc_balanced S1 det q rs ps ps' y L I A Hr E1 H1) as (LY & x & B & N). destruct (calc_balanced S2 det q rs qs qs' z L2 I2 A2 Hr E2 H2) as (LZ & x2 & B2 & N2).
  pose proof DE as (LN & _). apply Forall2_of_nth; [change (@num Rnum) with R in *; congruence|]. intros i a b HA HB. assert (Hi : (i < List.length ps)%nat) by (change (@num Rnum) with R in *; rewrite <- LY; apply nth_error_Some; congruence).
  assert (HA' := eq_trans (eq_sym (N i Hi)) HA). assert (HB' := eq_trans (eq_sym (N2 i ltac:(lia))) HB). injection HA' as <-. injection HB' as <-.
  assert (X : x i <= x2 i) by (apply (compared det q rs CO DT NL LA DI ps qs x x2 A); auto; intros j p P; apply DP; eapply nth_error_In; eauto).
  unfold Rmax. destruct (Rle_dec 0 (x i)), (Rle_dec 0 (x2 i)); lra.
Qed.
(** ** a step *)
Lemma step_bound (S : @solver Rnum) (m m' : @mps Rnum) det q C : ready m -> exact_solver S -> m_calc m = Implicit det q -> sensible (m_calc m) (s_reMax (m_settings m)) -> positive_compress (m_calc m) ->
  (forall p, In p (m_ps m) -> 0 < p_dens p) -> spread m -> stepForward S m = Ok m' -> 0 <= C ->
  (forall p, In p (m_ps m') -> p_type p <> Ghost -> p_type p <> DummyWall -> q_gamma q * compression (q_n0N q) p <= q_compress q * C) ->
  forall p, In p (m_ps m') -> 0 <= p_press p <= C.
Proof.
  intros RD ES K SN PC DN SP H HC HB. destruct (step_stages S m m' RD ES SN DN H) as (a & b & b1 & c & c1 & e & (n1 & n2 & n3 & n4 & H1 & _ & H2 & H3 & F) & _ & _ & _ & _ & _ & ST).
  assert (A1 := SP _ _ _ _ _ _ H1 H2 H3). destruct (ST A1) as ((LE & CT) & PR & (LC & CR)). rewrite K in PR, SN, PC. cbn [pressed sensible positive_compress] in PR, SN, PC. destruct PR as (x & PR), SN as (RL & N0 & NL & LA & DT), PC as (CO & DI).
  assert (DM : forall p, In p (m_ps m') -> 0 < p_dens p) by (eapply dens_kept; [eapply step_same_id; exact H|exact DN]).
  assert (BACK : forall i p, nth_error e i = Some p -> exists p0, nth_error c1 i = Some p0 /\ p_type p = p_type p0 /\ p_pos p = p_pos p0 /\ p_dens p = p_dens p0).
  { intros i p P. destruct (nth_error c1 i) as [p0|] eqn:P0; [|apply nth_error_None in P0; assert (i < List.length e)%nat by (apply nth_error_Some; congruence); lia].
    destruct (CT i p0 P0) as (p' & P' & T & D & _ & X & _). assert (p' = p) by congruence. subst p'. eauto 6. }
  assert (AE : apart e).
  { intros i j p r P R N TP TR. destruct (BACK i p P) as (p0 & P0 & T0 & X0 & _). destruct (BACK j r R) as (r0 & R0 & T1 & X1 & _). rewrite X0, X1. apply (A1 i j); congruence. }
  assert (DE : forall i p, nth_error e i = Some p -> p_type p <> Ghost -> p_type p <> DummyWall -> 0 < p_dens p).
  { intros i p P _ _. destruct (CR i p P) as (p' & P' & _ & D & _). rewrite <- D. apply DM. eapply nth_error_In; eauto. }
  assert (B : balanced det q (s_reMax (m_settings m)) e x) by (intros i p P; exact (proj2 (PR i p P))).
  intros p Hp. apply In_nth_error in Hp. destruct Hp as (i & Hp). destruct (nth_error e i) as [p0|] eqn:P0; [|apply nth_error_None in P0; assert (i < List.length (m_ps m'))%nat by (apply nth_error_Some; congruence); lia].
  destruct (CR i p0 P0) as (p' & P' & _ & _ & EP & _). assert (p' = p) by congruence. subst p'. rewrite EP, (proj1 (PR i p0 P0)). split; [apply Rmax_l|]. apply Rmax_lub; [exact HC|].
  apply (bounded det q (s_reMax (m_settings m)) CO DT NL LA DI e AE DE x C B HC); [|apply nth_error_Some; congruence].
  intros j r R (G & W & _). destruct (CR j r R) as (r' & R' & T & _ & _ & ND & _). replace (compression (q_n0N q) r) with (compression (q_n0N q) r') by (unfold compression; now rewrite ND). apply HB; [eapply nth_error_In; eauto| |]; congruence.
Qed.
