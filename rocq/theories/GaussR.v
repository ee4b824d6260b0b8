(** * An exact solver: Gaussian elimination over the reals

    Not a model of anything in /repo.  It shows that the hypothesis [exact_solver] can be met
    by a solver that completes on every pressure system, so that theorems with an exact solver
    speak about runs that exist. *)
From Coq Require Import Reals Lra.
From Verif Require Export TotalR.
Open Scope R_scope.
#[local] Remove Hints F64 : typeclass_instances.

Definition sum_to (n : nat) (f : nat -> R) : R := rsum (map f (seq 0 n)).
Lemma sum_to_S n f : sum_to (S n) f = sum_to n f + f n.
Proof. unfold sum_to. rewrite seq_S, map_app, rsum_app. simpl. lra. Qed.
Lemma sum_to_ext n f g : (forall j, (j < n)%nat -> f j = g j) -> sum_to n f = sum_to n g.
Proof. intros H. apply rsum_ext. intros j Hj. apply in_seq in Hj. apply H. lia. Qed.
Lemma sum_to_le n f g : (forall j, (j < n)%nat -> f j <= g j) -> sum_to n f <= sum_to n g.
Proof. intros H. apply rsum_le. intros j Hj. apply in_seq in Hj. apply H. lia. Qed.
Lemma sum_to_add n f g : sum_to n (fun j => f j + g j) = sum_to n f + sum_to n g.
Proof. apply rsum_add. Qed.
Lemma sum_to_mul n k f : sum_to n (fun j => k * f j) = k * sum_to n f.
Proof. apply rsum_mul. Qed.
Lemma sum_to_one n i f : (i < n)%nat -> (forall j, (j < n)%nat -> j <> i -> f j = 0) -> sum_to n f = f i.
Proof.
  revert i. induction n as [|n IH]; intros i Hi H; [lia|]. rewrite sum_to_S. destruct (Nat.eq_dec i n) as [->|N].
  - rewrite (sum_to_ext n f (fun j => 0 * 0)); [rewrite sum_to_mul; ring|]. intros j Hj. rewrite H by lia. ring.
  - rewrite (IH i) by (auto; lia). rewrite (H n) by lia. ring.
Qed.
Lemma sum_to_nonneg n f : (forall j, (j < n)%nat -> 0 <= f j) -> 0 <= sum_to n f.
Proof. intros H. apply rsum_nonneg. intros x Hx. apply in_map_iff in Hx. destruct Hx as (j & <- & Hj). apply in_seq in Hj. apply H. lia. Qed.
(** the sum without index i *)
Definition others (n i : nat) (f : nat -> R) : R := sum_to n (fun j => if Nat.eqb j i then 0 else f j).
Lemma others_split n i f : (i < n)%nat -> sum_to n f = f i + others n i f.
Proof.
  intros Hi. unfold others. transitivity (sum_to n (fun j => if Nat.eqb j i then f j else 0) + sum_to n (fun j => if Nat.eqb j i then 0 else f j)).
  - rewrite <- sum_to_add. apply sum_to_ext. intros j Hj. destruct (Nat.eqb j i); ring.
  - f_equal. rewrite (sum_to_one n i); [now rewrite Nat.eqb_refl|auto|]. intros j Hj N. now destruct (Nat.eqb_spec j i).
Qed.

(** eliminating the last unknown *)
Fixpoint solve (n : nat) (A : nat -> nat -> R) (b : nat -> R) : nat -> R :=
  match n with
  | O => fun _ => 0
  | S n =>
      let x := solve n (fun i j => A i j - A i n * A n j / A n n) (fun i => b i - A i n * b n / A n n) in
      fun i => if Nat.eqb i n then (b n - sum_to n (fun j => A n j * x j)) / A n n else x i
  end.
Definition dominant (n : nat) (A : nat -> nat -> R) : Prop := forall i, (i < n)%nat -> others n i (fun j => Rabs (A i j)) < Rabs (A i i).

Lemma dominant_pivot n A : dominant n A -> forall i, (i < n)%nat -> A i i <> 0.
Proof.
  intros D i Hi E. specialize (D i Hi). rewrite E, Rabs_R0 in D.
  assert (0 <= others n i (fun j => Rabs (A i j))); [|lra]. apply sum_to_nonneg. intros j _. destruct (Nat.eqb j i); [lra|apply Rabs_pos].
Qed.

Lemma dominant_schur n A : dominant (S n) A -> dominant n (fun i j => A i j - A i n * A n j / A n n).
Proof.
  intros D i Hi. pose proof (dominant_pivot _ _ D n ltac:(lia)) as PV. set (p := Rabs (A n n)) in *. assert (PP : 0 < p) by (apply Rabs_pos_lt; auto).
  assert (Di := D i ltac:(lia)). assert (Dn := D n ltac:(lia)). unfold others in *. rewrite sum_to_S in Di, Dn. fold p in Dn. rewrite Nat.eqb_refl in Dn.
  replace (Nat.eqb n i) with false in Di by (symmetry; apply Nat.eqb_neq; lia).
  set (q := Rabs (A i n)) in *. assert (QP : 0 <= q) by apply Rabs_pos.
  set (sn := sum_to n (fun j => Rabs (A n j))).
  assert (SN : sn < p). { unfold sn. rewrite (sum_to_ext n _ (fun j => if Nat.eqb j n then 0 else Rabs (A n j))); [lra|]. intros j Hj. destruct (Nat.eqb_spec j n); [lia|auto]. }
  set (R1 := sum_to n (fun j => if Nat.eqb j i then 0 else Rabs (A i j))) in *.
  set (R2 := sum_to n (fun j => if Nat.eqb j i then 0 else Rabs (A n j))).
  assert (S2 : sn = Rabs (A n i) + R2) by (unfold sn, R2; apply (others_split n i (fun j => Rabs (A n j))); auto).
  apply Rle_lt_trans with (R1 + q / p * R2).
  - unfold R1, R2. rewrite <- sum_to_mul, <- sum_to_add. apply sum_to_le. intros j Hj. destruct (Nat.eqb j i); [lra|].
    unfold Rminus. eapply Rle_trans; [apply Rabs_triang|]. apply Rplus_le_compat_l. rewrite Rabs_Ropp. unfold Rdiv. rewrite !Rabs_mult, Rabs_inv. fold p q. right. ring.
  - assert (T : Rabs (A i i) - q / p * Rabs (A n i) <= Rabs (A i i - A i n * A n i / A n n)).
    { eapply Rle_trans; [|apply Rabs_triang_inv]. apply Rplus_le_compat_l, Ropp_le_contravar. unfold Rdiv. rewrite !Rabs_mult, Rabs_inv. fold p q. right. ring. }
    assert (q / p * sn <= q). { apply Rmult_le_reg_r with p; auto. replace (q / p * sn * p) with (q * sn) by (field; lra). apply Rmult_le_compat_l; lra. }
    rewrite S2 in H. lra.
Qed.

Lemma solve_solves n A b : dominant n A -> forall i, (i < n)%nat -> sum_to n (fun j => A i j * solve n A b j) = b i.
Proof.
  revert A b. induction n as [|n IH]; intros A b D i Hi; [lia|].
  pose proof (dominant_pivot _ _ D n ltac:(lia)) as PV.
  set (A' := fun i j => A i j - A i n * A n j / A n n). set (b' := fun i => b i - A i n * b n / A n n).
  assert (X : forall j, (j < n)%nat -> solve (S n) A b j = solve n A' b' j). { intros j Hj. cbn [solve]. destruct (Nat.eqb_spec j n); [lia|reflexivity]. }
  assert (XN : solve (S n) A b n = (b n - sum_to n (fun j => A n j * solve n A' b' j)) / A n n). { cbn [solve]. now rewrite Nat.eqb_refl. }
  rewrite sum_to_S, XN. set (x := solve n A' b') in *.
  rewrite (sum_to_ext n _ (fun j => A i j * x j)) by (intros j Hj; rewrite X by auto; reflexivity).
  destruct (Nat.eq_dec i n) as [->|N]; [field; auto|].
  pose proof (IH A' b' (dominant_schur n A D) i ltac:(lia)) as E. fold x in E. unfold A' in E at 1.
  rewrite (sum_to_ext n _ (fun j => A i j * x j + (- (A i n / A n n)) * (A n j * x j))) in E by (intros; unfold Rdiv; ring).
  rewrite sum_to_add, sum_to_mul in E. unfold b' in E. unfold Rdiv in *.
  replace (A i n * ((b n - sum_to n (fun j => A n j * x j)) * / A n n)) with (A i n * b n * / A n n + - (A i n * / A n n) * sum_to n (fun j => A n j * x j)) by ring. lra.
Qed.

(** the solver: eliminate, and return the result if it is a solution *)
Definition matrix (ts : list (@triplet Rnum)) (i j : nat) : R := entry ts (Z.of_nat i) (Z.of_nat j).
Definition gauss : @solver Rnum := fun n ts b =>
  let x := map (solve n (matrix ts) (fun i => @nth R i b 0)) (seq 0 n) in
  if Nat.eqb (List.length b) n && forallb (fun i => Req_bool (sum_to n (fun j => matrix ts i j * @nth R j x 0)) (@nth R i b 0)) (seq 0 n)
  then Some x else None.
Lemma gauss_exact : exact_solver gauss.
Proof.
  intros n ts b x H. unfold gauss in H. destruct (Nat.eqb_spec (List.length b) n) as [L|]; [|discriminate].
  destruct (forallb _ _) eqn:F; [|discriminate]. cbn [andb] in H. inv H. split; [now rewrite map_length, seq_length|]. split; auto.
  intros i Hi. rewrite forallb_forall in F. specialize (F i ltac:(apply in_seq; lia)). destruct (Req_bool_spec (sum_to (List.length b) (fun j => matrix ts i j * @nth R j (map (solve (List.length b) (matrix ts) (fun i => @nth R i b 0)) (seq 0 (List.length b))) 0)) (@nth R i b 0)) as [EQ|]; [exact EQ|discriminate].
Qed.
Lemma exact_sized S : exact_solver S -> sized S.
Proof. intros E n ts b x H. exact (proj1 (E _ _ _ _ H)). Qed.
Lemma gauss_total n ts b : List.length b = n -> dominant n (matrix ts) -> exists x, gauss n ts b = Some x.
Proof.
  intros L D. unfold gauss. rewrite L, Nat.eqb_refl. cbn [andb].
  match goal with |- context [forallb ?f ?l] => assert (F : forallb f l = true) end; [|rewrite F; eauto].
  apply forallb_forall. intros i Hi. apply in_seq in Hi. apply Req_bool_true. rewrite <- (solve_solves n (matrix ts) (fun i => @nth R i b 0) D i) by lia.
  apply sum_to_ext. intros j Hj. f_equal.
  rewrite (nth_indep _ 0 (solve n (matrix ts) (fun i => @nth R i b 0) 0%nat)) by (rewrite map_length, seq_length; lia).
  rewrite map_nth. now rewrite seq_nth by lia.
Qed.

(** the pressure system is strictly diagonally dominant, so it has a solution *)
Lemma ppe_dominant det (q : @ppe Rnum) rs (ps ps' : list partR) d ts b :
  listed rs ps -> indexed ps -> apart ps -> q_reL q <= rs ->
  0 < q_compress q -> q_dt q <> 0 -> 0 < q_n0L q -> 0 < q_lambda q -> (0 <= q_dim q)%Z ->
  (forall p, In p ps -> p_type p <> Ghost -> p_type p <> DummyWall -> 0 < p_dens p) ->
  generateBC det ps = Ok (ps', d) -> ppe_setup q d ps' = Ok (ts, b) ->
  List.length ps' = List.length ps /\ List.length b = List.length ps /\ dominant (List.length ps) (matrix ts).
Proof.
  intros L I A Hr Hc Ht Hn Hl Hdm Hd HG HS.
  destruct (C28_matrix_lemma det q rs ps L I A Hr) as (ps1 & d1 & ts1 & b1 & E1 & E2 & LN & LB & H). rewrite HG in E1. inv E1. rewrite HS in E2. inv E2.
  apply generate_R in HG. destruct HG as [E ->]. destruct (bc_frame det rs ps ps1 L I A E) as (L' & I' & A' & _ & GB & M).
  split; auto. split; auto. intros i Hi.
  destruct (nth_error_ext_length ps1 i) as [p Hp]; [lia|]. destruct (H i p Hp) as [H1 H2].
  assert (CD : p_bc p = Inner \/ p_bc p <> Inner) by (destruct (p_bc p); auto; right; discriminate). destruct CD as [B|B].
  - destruct (H2 B) as (_ & OFF & SUM). clear H1 H2 H.
    assert (DP : 0 < p_dens p).
    { destruct (Forall2_nth_r _ _ _ _ _ M Hp) as (a & Ha & Ep).
      assert (TA : p_type a = p_type p) by (rewrite Ep; reflexivity). replace (p_dens p) with (p_dens a) by (rewrite Ep; reflexivity).
      apply Hd; [eapply nth_error_In; eauto| |]; rewrite TA; intros T; rewrite (GB _ (nth_error_In _ _ Hp)) in B by auto; discriminate. }
    assert (PT : p_type p <> Ghost) by (intros T; rewrite (GB _ (nth_error_In _ _ Hp)) in B by auto; discriminate).
    assert (NEG : forall j, (j < List.length ps)%nat -> j <> i -> matrix ts1 i j <= 0).
    { intros j Hj N. destruct (nth_error_ext_length ps1 j) as [r Hq]; [lia|]. unfold matrix. rewrite (OFF j r Hq N).
      destruct ((p_type r =? Ghost)%Z || (p_type r =? DummyWall)%Z) eqn:T; [lra|]. apply orb_false_elim in T. destruct T as [T1 T2]. apply Z.eqb_neq in T1.
      apply Ropp_le_cancel. rewrite Ropp_involutive, Ropp_0. unfold Rdiv. apply Rmult_le_pos; [|left; apply Rinv_0_lt_compat; auto].
      apply Rmult_le_pos.
      - apply Rmult_le_pos; [|left; apply Rinv_0_lt_compat, Rmult_lt_0_compat; auto]. apply Rmult_le_pos; [lra|]. apply IZR_le; auto.
      - apply w_nonneg, euclid_pos. intros X. apply (A' i j p r); auto. }
    change (sum_to (List.length ps) (matrix ts1 i) = q_compress q / q_dt q ^ 2) in SUM. rewrite (others_split _ i) in SUM by auto.
    assert (C0 : 0 < q_compress q / q_dt q ^ 2) by (apply Rdiv_lt_0_compat; auto; now apply pow_neq_0_lt).
    assert (EO : others (List.length ps) i (fun j => Rabs (matrix ts1 i j)) = - others (List.length ps) i (matrix ts1 i)).
    { unfold others. replace (- _) with (-1 * sum_to (List.length ps) (fun j => if (j =? i)%nat then 0 else matrix ts1 i j)) by ring. rewrite <- sum_to_mul.
      apply sum_to_ext. intros j Hj. destruct (Nat.eqb_spec j i); [ring|]. rewrite Rabs_left1 by auto. ring. }
    rewrite EO. assert (0 <= others (List.length ps) i (fun j => Rabs (matrix ts1 i j))). { apply sum_to_nonneg. intros j _. destruct (Nat.eqb j i); [lra|apply Rabs_pos]. }
    rewrite Rabs_right; lra.
  - destruct (H1 B) as [_ ID]. assert (EI := ID i). rewrite Nat.eqb_refl in EI. change (matrix ts1 i i = 1) in EI. rewrite EI, Rabs_R1.
    unfold others. rewrite (sum_to_ext _ _ (fun _ => 0 * 0)); [rewrite sum_to_mul; lra|]. intros j Hj. destruct (Nat.eqb_spec j i); [ring|].
    assert (EJ := ID j). destruct (Nat.eqb_spec i j); [congruence|]. change (matrix ts1 i j = 0) in EJ. rewrite EJ, Rabs_R0. ring.
Qed.

(** C28: the system has a solution *)
Lemma C28_solvable_lemma det (q : @ppe Rnum) rs (ps ps' : list partR) d ts b :
  listed rs ps -> indexed ps -> apart ps -> q_reL q <= rs ->
  0 < q_compress q -> q_dt q <> 0 -> 0 < q_n0L q -> 0 < q_lambda q -> (0 <= q_dim q)%Z ->
  (forall p, In p ps -> p_type p <> Ghost -> p_type p <> DummyWall -> 0 < p_dens p) ->
  generateBC det ps = Ok (ps', d) -> ppe_setup q d ps' = Ok (ts, b) -> exists x, solves (List.length ps) ts b x.
Proof.
  intros L I A Hr Hc Ht Hn Hl Hdm Hd HG HS. destruct (ppe_dominant det q rs ps ps' d ts b) as (_ & LB & D); auto.
  destruct (gauss_total _ ts b LB D) as [x E]. exists x. exact (gauss_exact _ _ _ _ E).
Qed.
