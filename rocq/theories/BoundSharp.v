(** * Implicit pressures of a group of particles (C84) *)
From Coq Require Import Reals Lra PeanoNat.
From Verif Require Export BoundR.
Open Scope R_scope.
#[local] Remove Hints F64 : typeclass_instances.

Section Pool.
Variables (det : @detector Rnum) (q : @ppe Rnum) (rs : R).
Hypotheses (CO : 0 < q_compress q) (DT : q_dt q <> 0) (NL : 0 < q_n0L q) (LA : 0 < q_lambda q) (DI : (0 <= q_dim q)%Z).
Variable ps : list partR.
Hypotheses (AP : apart ps) (DP : forall i p, nth_error ps i = Some p -> p_type p <> Ghost -> p_type p <> DummyWall -> 0 < p_dens p).
Variables (pool : nat -> bool) (x : nat -> R).
Hypotheses (PO : forall i p, nth_error ps i = Some p -> pool i = true -> solved_for det rs ps i p)
  (CL : forall i p j r, nth_error ps i = Some p -> nth_error ps j = Some r -> pool i = true -> i <> j -> p_type r <> Ghost -> p_type r <> DummyWall -> euclid (p_pos p) (p_pos r) < q_reL q -> pool j = true)
  (B : balanced det q rs ps x).
Let kc := q_compress q / q_dt q ^ 2.
Let D C i := if pool i then x i - C else 0.
Lemma pool_equation C i p : nth_error ps i = Some p -> pool i = true ->
  sum_others ps i (fun j r => link q ps i j r * (D C i - D C j)) + kc * D C i = (q_gamma q * compression (q_n0N q) p - q_compress q * C) * / q_dt q ^ 2.
Proof using All.
  intros P I. assert (S := PO i p P I). assert (L := balanced_link det q rs ps x i p B P S).
  rewrite (sum_others_ext ps i _ (fun j r => link q ps i j r * (x i - x j))).
  - unfold D at 1. rewrite I. unfold kc. unfold Rdiv in *. replace ((q_gamma q * compression (q_n0N q) p - q_compress q * C) * / q_dt q ^ 2) with (q_gamma q * / q_dt q ^ 2 * compression (q_n0N q) p - q_compress q * / q_dt q ^ 2 * C) by ring. lra.
  - intros j r R N G. unfold D. rewrite I. destruct (pool j) eqn:J; [ring|].
    assert (Z : link q ps i j r = 0); [|rewrite Z; ring]. unfold link. rewrite P. destruct (Z.eqb_spec (p_type r) DummyWall); [reflexivity|].
    destruct (Rlt_dec (euclid (p_pos p) (p_pos r)) (q_reL q)) as [l|l]; [rewrite (CL i p j r P R I) in J; auto; discriminate|]. rewrite w_out by lra. unfold Rdiv. ring.
Qed.
Lemma pool_D C i : D C i <> 0 -> pool i = true.
Proof. unfold D. destruct (pool i); [auto|intros H; now destruct H]. Qed.
Lemma dt2_inv : 0 < / q_dt q ^ 2.
Proof using DT. apply Rinv_0_lt_compat, (dt2 q DT). Qed.
Lemma pool_above C : (forall i p, nth_error ps i = Some p -> pool i = true -> q_gamma q * compression (q_n0N q) p <= q_compress q * C) ->
  forall i, (i < List.length ps)%nat -> pool i = true -> x i <= C.
Proof using All.
  intros HC i Hi I. assert (U : D C i <= 0).
  { apply (max_principle_le ps (D C) (link q ps) _ (kc_pos q CO DT)); [| |exact Hi].
    - intros i0 p j r P R N G X. apply (link_nonneg det q rs NL LA DI ps AP DP i0 p); auto. apply (PO i0 p P), (pool_D C). lra.
    - intros i0 p P X. assert (PI : pool i0 = true) by (apply (pool_D C); lra). fold kc. rewrite (pool_equation C i0 p P PI). specialize (HC i0 p P PI). assert (K := dt2_inv).
      cut (0 <= (q_compress q * C - q_gamma q * compression (q_n0N q) p) * / q_dt q ^ 2); [lra|]. apply Rmult_le_pos; lra. }
  unfold D in U. rewrite I in U. lra.
Qed.
Lemma pool_below C : (forall i p, nth_error ps i = Some p -> pool i = true -> q_compress q * C <= q_gamma q * compression (q_n0N q) p) ->
  forall i, (i < List.length ps)%nat -> pool i = true -> C <= x i.
Proof using All.
  intros HC i Hi I. assert (V : - D C i <= 0).
  { apply (max_principle_le ps (fun i => - D C i) (link q ps) _ (kc_pos q CO DT)); [| |exact Hi].
    - intros i0 p j r P R N G X. apply (link_nonneg det q rs NL LA DI ps AP DP i0 p); auto. apply (PO i0 p P), (pool_D C). lra.
    - intros i0 p P X. assert (PI : pool i0 = true) by (apply (pool_D C); lra). assert (E := pool_equation C i0 p P PI).
      rewrite (sum_others_ext ps i0 _ (fun j r => - (link q ps i0 j r * (D C i0 - D C j)))) by (intros; ring). rewrite sum_others_opp. fold kc.
      specialize (HC i0 p P PI). assert (K := dt2_inv).
      assert (0 <= (q_gamma q * compression (q_n0N q) p - q_compress q * C) * / q_dt q ^ 2) by (apply Rmult_le_pos; lra). lra. }
  unfold D in V. rewrite I in V. lra.
Qed.
End Pool.
Lemma levels_between (S : @solver Rnum) det q rs (ps ps' : list partR) y C1 C2 (pool : nat -> bool) : listed rs ps -> indexed ps -> apart ps -> q_reL q <= rs -> exact_solver S ->
  0 < q_compress q -> q_dt q <> 0 -> 0 < q_n0L q -> 0 < q_lambda q -> (0 <= q_dim q)%Z ->
  (forall p, In p ps -> p_type p <> Ghost -> p_type p <> DummyWall -> 0 < p_dens p) ->
  (forall i p, nth_error ps i = Some p -> pool i = true -> solved_for det rs ps i p /\ q_compress q * C1 <= q_gamma q * compression (q_n0N q) p <= q_compress q * C2) ->
  (forall i p j r, nth_error ps i = Some p -> nth_error ps j = Some r -> pool i = true -> i <> j -> p_type r <> Ghost -> p_type r <> DummyWall -> euclid (p_pos p) (p_pos r) < q_reL q -> pool j = true) ->
  implicitCalc S det q ps = Ok (ps', y) -> forall i, (i < List.length ps)%nat -> pool i = true -> exists v, nth_error y i = Some v /\ Rmax 0 C1 <= v <= Rmax 0 C2.
Proof.
  intros L I A Hr ES CO DT NL LA DI DP PO CL H i Hi PI. destruct (calc_balanced S det q rs ps ps' y L I A Hr ES H) as (LY & x & B & N).
  assert (DP' : forall j p, nth_error ps j = Some p -> p_type p <> Ghost -> p_type p <> DummyWall -> 0 < p_dens p) by (intros j p P; apply DP; eapply nth_error_In; eauto).
  assert (S1 : forall j p, nth_error ps j = Some p -> pool j = true -> solved_for det rs ps j p) by (intros; now apply PO).
  exists (Rmax 0 (x i)). split; [now apply N|].
  assert (x i <= C2) by (apply (pool_above det q rs CO DT NL LA DI ps A DP' pool x S1 CL B); auto; intros j p P J; destruct (PO j p P J) as (_ & X & Y); assumption).
  assert (C1 <= x i) by (apply (pool_below det q rs CO DT NL LA DI ps A DP' pool x S1 CL B); auto; intros j p P J; destruct (PO j p P J) as (_ & X & Y); assumption).
  split; apply Rle_max_compat_l; assumption.
Qed.
Lemma attained (S : @solver Rnum) det q rs (ps ps' : list partR) y C (pool : nat -> bool) : listed rs ps -> indexed ps -> apart ps -> q_reL q <= rs -> exact_solver S ->
  0 < q_compress q -> q_dt q <> 0 -> 0 < q_n0L q -> 0 < q_lambda q -> (0 <= q_dim q)%Z ->
  (forall p, In p ps -> p_type p <> Ghost -> p_type p <> DummyWall -> 0 < p_dens p) ->
  (forall i p, nth_error ps i = Some p -> pool i = true -> solved_for det rs ps i p /\ q_gamma q * compression (q_n0N q) p = q_compress q * C) ->
  (forall i p j r, nth_error ps i = Some p -> nth_error ps j = Some r -> pool i = true -> i <> j -> p_type r <> Ghost -> p_type r <> DummyWall -> euclid (p_pos p) (p_pos r) < q_reL q -> pool j = true) ->
  implicitCalc S det q ps = Ok (ps', y) -> forall i, (i < List.length ps)%nat -> pool i = true -> nth_error y i = Some (Rmax 0 C).
Proof.
  intros L I A Hr ES CO DT NL LA DI DP PO CL H i Hi PI. destruct (levels_between S det q rs ps ps' y C C pool L I A Hr ES CO DT NL LA DI DP) with (i := i) as (v & V & W); auto.
  - intros j p P J. destruct (PO j p P J) as (X & Y). split; [exact X|lra].
  - rewrite V. f_equal. lra.
Qed.
