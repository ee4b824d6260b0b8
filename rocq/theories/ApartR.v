(** * A group of particles among others that stay out of reach: implicit pressures in exact arithmetic (C83) *)
From Coq Require Import Reals Lra PeanoNat.
From Verif Require Import SymStepR.
From Verif Require Export ApartRun NeighborThms.
Open Scope R_scope.
#[local] Remove Hints F64 : typeclass_instances.

Lemma searchable_R (re : R) d : 0 < re -> proper_domain d -> @searchable Rnum re d.
Proof. intros RE PD ns ps ns' ps' U _. assert (G := used_shape _ _ _ _ U). split; [eapply searcher_ok_R; eauto|eapply cells_ok_R; eauto]. Qed.
Lemma dist_R (p q : partR) : @separation Rnum p q = euclid (p_pos p) (p_pos q).
Proof. unfold separation. apply (pdist_R p q). Qed.

Section ApartR.
Variable e : nat -> nat.

(** ** sums over the members *)
Lemma rsum_members (F : nat -> R) M n : (forall i j, (i < j < n)%nat -> (e i < e j)%nat) -> (forall i, (i < n)%nat -> (e i < M)%nat) ->
  (forall j, (j < M)%nat -> stranger e n j -> F j = 0) -> rsum (map F (seq 0 M)) = rsum (map (fun i => F (e i)) (seq 0 n)).
Proof.
  intros INC RNG OUT. set (g := fun j => if Req_EM_T (F j) 0 then [] else [F j]).
  assert (K : forall (h : nat -> nat) l, rsum (map (fun i => F (h i)) l) = rsum (flat_map (fun i => g (h i)) l)).
  { intros h l. induction l as [|x l IH]; [reflexivity|]. unfold rsum in *. cbn [map flat_map fold_right]. rewrite IH. unfold g at 2. destruct (Req_EM_T (F (h x)) 0) as [E|E]; cbn [app fold_right]; lra. }
  rewrite (K (fun j => j)), (K e). f_equal. apply flat_map_members; auto. intros j J ST. unfold g. rewrite (OUT j J ST). destruct (Req_EM_T 0 0); [reflexivity|lra].
Qed.
(** types, places, densities and number densities of the members *)
Definition part (W A : list partR) : Prop := (forall i j, (i < j < List.length A)%nat -> (e i < e j)%nat) /\
  forall i p, nth_error A i = Some p -> exists q, nth_error W (e i) = Some q /\ p_type q = p_type p /\ p_pos q = p_pos p /\ p_dens q = p_dens p /\ p_nd q = p_nd p.
Definition far (re : R) (n : nat) (W : list partR) : Prop := forall i j p q, (i < n)%nat -> stranger e n j -> nth_error W (e i) = Some p -> nth_error W j = Some q ->
  p_type p <> Ghost -> p_type q <> Ghost -> re <= euclid (p_pos p) (p_pos q).
Lemma part_inj W A i j : part W A -> (i < List.length A)%nat -> (j < List.length A)%nat -> e i = e j -> i = j.
Proof. intros (R & _) I J E. destruct (Nat.lt_trichotomy i j) as [l|[l|l]]; [|exact l|]; [assert (e i < e j)%nat by (apply R; lia)|assert (e j < e i)%nat by (apply R; lia)]; lia. Qed.
Lemma sum_part W A i p (g h : nat -> partR -> R) : part W A -> nth_error A i = Some p ->
  (forall j a b, nth_error A j = Some a -> nth_error W (e j) = Some b -> j <> i -> p_type a <> Ghost -> g (e j) b = h j a) ->
  (forall j b, nth_error W j = Some b -> stranger e (List.length A) j -> p_type b <> Ghost -> g j b = 0) ->
  sum_others W (e i) g = sum_others A i h.
Proof.
  intros T P H Z. assert (I : (i < List.length A)%nat) by (apply nth_error_Some; congruence). unfold sum_others. rewrite (rsum_members _ (List.length W) (List.length A)).
  - apply rsum_ext. intros j J. apply in_seq in J. destruct (nth_error A j) as [a|] eqn:A0; [|apply nth_error_None in A0; lia]. destruct (proj2 T j a A0) as (b & B & Tb & _). rewrite B, Tb.
    destruct (Nat.eqb_spec j i) as [->|N]; [rewrite Nat.eqb_refl; reflexivity|]. destruct (Nat.eqb_spec (e j) (e i)) as [X|_]; [exfalso; apply N; eapply part_inj; eauto; lia|]. cbn [orb].
    destruct (Z.eqb_spec (p_type a) Ghost); [reflexivity|]. now apply H.
  - apply T.
  - intros j J. destruct (nth_error A j) as [a|] eqn:A0; [|apply nth_error_None in A0; lia]. destruct (proj2 T j a A0) as (b & B & _). apply nth_error_Some. congruence.
  - intros j J ST. destruct (nth_error W j) as [b|] eqn:B; [|reflexivity]. destruct (_ || _) eqn:G; [reflexivity|]. apply Z with (1 := B); [exact ST|]. apply orb_false_iff in G. apply Z.eqb_neq, G.
Qed.
Lemma sumv_part W A i p (g h : nat -> partR -> vecR) : part W A -> nth_error A i = Some p ->
  (forall j a b, nth_error A j = Some a -> nth_error W (e j) = Some b -> j <> i -> p_type a <> Ghost -> g (e j) b = h j a) ->
  (forall j b, nth_error W j = Some b -> stranger e (List.length A) j -> p_type b <> Ghost -> g j b = zeroR) ->
  sumv W (e i) g = sumv A i h.
Proof.
  intros T P H Z. unfold sumv. f_equal; apply (sum_part W A i p); auto; intros; try (now rewrite (H j a b)); now rewrite (Z j b).
Qed.
Lemma surface_part det re W A i p q : part W A -> far re (List.length A) W -> nth_error A i = Some p -> nth_error W (e i) = Some q -> p_type p <> Ghost ->
  (surface det re A i p <-> surface det re W (e i) q).
Proof.
  intros T FAR P Q GP. assert (I : (i < List.length A)%nat) by (apply nth_error_Some; congruence). destruct (proj2 T i p P) as (q0 & Q0 & Tq & Xq & _ & ND). assert (q0 = q) by congruence. subst q0. destruct det as [thr n0|n0 l0 dr ndr]; cbn [surface].
  - rewrite ND. tauto.
  - assert (OS : offset_sum re W (e i) q = offset_sum re A i p).
    { unfold offset_sum. apply (sumv_part W A i p _ _ T P).
      - intros j x y X Y N _. destruct (proj2 T j x X) as (y' & Y' & _ & Xy & _). assert (y' = y) by congruence. subst y'. rewrite Xy, Xq. reflexivity.
      - intros j b B ST G. destruct (Rlt_dec _ re) as [l|]; [exfalso|reflexivity]. assert (re <= euclid (p_pos q) (p_pos b)) by (apply (FAR i j); auto; congruence). lra. }
    rewrite OS, ND. split; intros (A0 & [B|B]); (split; [exact A0|]); [left|right; exact B|left|right; exact B].
    + intros j y Y N G. destruct (member_or_stranger e (List.length A) j) as [(k & K & <-)|ST]; [|apply (FAR i j); auto; congruence].
      destruct (nth_error A k) as [x|] eqn:X; [|apply nth_error_None in X; lia]. destruct (proj2 T k x X) as (y' & Y' & Ty & Xy & _). assert (y' = y) by congruence. subst y'. rewrite Xq, Xy. apply (B k x X); [|congruence]. intros ->. now apply N.
    + intros j x X N G. destruct (proj2 T j x X) as (y & Y & Ty & Xy & _). rewrite <- Xq, <- Xy. apply (B (e j) y Y); [|congruence]. intros E. apply N. apply (part_inj W A); auto. apply nth_error_Some; congruence.
Qed.

(** ** the pressures of the members are determined by the members *)
Lemma pressed_part k reMax W A : part W A -> far reMax (List.length A) W -> pressed k reMax W -> pressed k reMax A ->
  sensible k reMax -> positive_compress k -> apart A -> (forall i p, nth_error A i = Some p -> p_type p <> Ghost -> 0 < p_dens p) ->
  forall i p q, nth_error A i = Some p -> nth_error W (e i) = Some q -> p_press q = p_press p.
Proof.
  intros T FAR H2 H1 SN PC AP DP. destruct k as [det w|n0 c]; cbn [pressed] in *.
  2: { intros i p q P Q. destruct (proj2 T i p P) as (q0 & Q0 & Tq & _ & Dq & Nq). assert (q0 = q) by congruence. subst q0.
    rewrite (H1 p (nth_error_In _ _ P)), (H2 q (nth_error_In _ _ Q)), Tq, Dq, Nq. reflexivity. }
  - destruct H1 as (x & H1), H2 as (y & H2). destruct SN as (RL & N0N & N0L & LA & DT). destruct PC as (CO & DI).
    set (kc := q_compress w / q_dt w ^ 2) in *. assert (KC : 0 < kc).
    { unfold kc, Rdiv. apply Rmult_lt_0_compat; [exact CO|]. apply Rinv_0_lt_compat. rewrite <- Rsqr_pow2. now apply Rsqr_pos_lt. }
    set (co := 2 * IZR (q_dim w) / (q_n0L w * q_lambda w)) in *. assert (COE : 0 <= co).
    { unfold co, Rdiv. apply Rmult_le_pos; [assert (HZ : 0 <= IZR (q_dim w)) by (now apply IZR_le); lra|]. left. apply Rinv_0_lt_compat, Rmult_lt_0_compat; assumption. }
    set (a := fun i (j : nat) (r : partR) => match nth_error A i with Some p => if (p_type r =? DummyWall)%Z then 0 else co * w_spec (q_reL w) (euclid (p_pos p) (p_pos r)) / p_dens p | None => 0 end).
    set (D := fun i => x i - y (e i)).
    assert (INN : forall i p, nth_error A i = Some p -> D i <> 0 -> (p_type p <> Ghost /\ p_type p <> DummyWall /\ ~ surface det reMax A i p) /\
              exists q, nth_error W (e i) = Some q /\ p_type q = p_type p /\ p_dens q = p_dens p /\ p_pos q = p_pos p /\ p_nd q = p_nd p /\ (p_type q <> Ghost /\ p_type q <> DummyWall /\ ~ surface det reMax W (e i) q)).
    { intros i p P DN. destruct (proj2 T i p P) as (q & Q & Tq & Xq & Dq & N). assert (SU := surface_part det reMax W A i p q T FAR P Q).
      assert (IF : (p_type p <> Ghost /\ p_type p <> DummyWall /\ ~ surface det reMax A i p) <-> (p_type q <> Ghost /\ p_type q <> DummyWall /\ ~ surface det reMax W (e i) q)) by (rewrite Tq; tauto).
      destruct (H1 i p P) as (_ & A1 & _). destruct (H2 _ q Q) as (_ & A2 & _). cbv zeta in A1, A2.
      destruct (Classical_Prop.classic (p_type p <> Ghost /\ p_type p <> DummyWall /\ ~ surface det reMax A i p)) as [I|I]; [split; [exact I|]; exists q; repeat (split; [assumption|]); now apply IF|].
      exfalso. apply DN. unfold D. rewrite (A1 I), (A2 (fun Z => I (proj2 IF Z))). ring. }
    assert (EQ : forall i p, nth_error A i = Some p -> D i <> 0 -> sum_others A i (fun j r => a i j r * (D i - D j)) + kc * D i = 0).
    { intros i p P DN. destruct (INN i p P DN) as (I1 & q & Q & Tq & Dq & Xq & Nq & I2). destruct (H1 i p P) as (_ & _ & A1). destruct (H2 _ q Q) as (_ & _ & A2). specialize (A1 I1). specialize (A2 I2).
      assert (S1 : sum_others A i (fun j r => a i j r * (x i - x j)) + kc * x i = q_gamma w / q_dt w ^ 2 * ((p_nd p - q_n0N w) / q_n0N w)).
      { rewrite <- A1. f_equal. apply sum_others_ext. intros j r R N G. unfold a. rewrite P. destruct (p_type r =? DummyWall)%Z; ring. }
      assert (S2 : sum_others A i (fun j r => a i j r * (y (e i) - y (e j))) + kc * y (e i) = q_gamma w / q_dt w ^ 2 * ((p_nd p - q_n0N w) / q_n0N w)).
      { rewrite <- Nq, <- A2. f_equal. symmetry. apply (sum_part W A i p _ _ T P).
        - intros j u v U V N G. destruct (proj2 T j u U) as (v' & V' & Tv & Xv & _). assert (v' = v) by congruence. subst v'. unfold a. rewrite P, Tv, Xv, Xq, Dq. destruct (p_type u =? DummyWall)%Z; ring.
        - intros j b B ST G. destruct (p_type b =? DummyWall)%Z; [reflexivity|]. rewrite w_out; [unfold Rdiv; ring|]. apply Rle_trans with reMax; [exact RL|]. apply (FAR i j); auto; [apply nth_error_Some; congruence|apply I2]. }
      assert (S3 := sum_others_sub A i (fun j r => a i j r * (x i - x j)) (fun j r => a i j r * (y (e i) - y (e j)))).
      assert (S4 : sum_others A i (fun j r => a i j r * (x i - x j) - a i j r * (y (e i) - y (e j))) = sum_others A i (fun j r => a i j r * (D i - D j))) by (apply sum_others_ext; intros; unfold D; ring).
      rewrite <- S4, <- S3. unfold D. lra. }
    assert (AN : forall i p j r, nth_error A i = Some p -> nth_error A j = Some r -> j <> i -> p_type r <> Ghost -> D i <> 0 -> 0 <= a i j r).
    { intros i p j r P R N G DN. destruct (INN i p P DN) as ((Gp & _ & _) & _). unfold a. rewrite P. destruct (p_type r =? DummyWall)%Z; [lra|].
      assert (0 < p_dens p) by now apply (DP i). assert (0 < euclid (p_pos p) (p_pos r)) by (apply euclid_pos; apply (AP i j p r P R); auto).
      unfold Rdiv. apply Rmult_le_pos; [apply Rmult_le_pos; [exact COE|now apply w_spec_nonneg]|left; now apply Rinv_0_lt_compat]. }
    assert (UP := max_principle A D a kc KC AN EQ).
    assert (DOWN := max_principle A (fun i => - D i) a kc KC).
    intros i p q P Q. assert (I : (i < List.length A)%nat) by (apply nth_error_Some; congruence).
    destruct (H1 i p P) as (E1 & _). destruct (H2 _ q Q) as (E2 & _). rewrite E1, E2. f_equal.
    assert (D i <= 0) by now apply UP. assert (- D i <= 0).
    { apply DOWN; [| |exact I].
      - intros i0 p0 j r P0 R N G DN. apply (AN i0 p0 j r); auto. lra.
      - intros i0 p0 P0 DN. rewrite (sum_others_ext A i0 _ (fun j r => - (a i0 j r * (D i0 - D j)))) by (intros; ring). rewrite sum_others_opp. assert (Z := EQ i0 p0 P0 ltac:(lra)). lra. }
    unfold D in *. lra.
Qed.
End ApartR.
