(** * Sums over neighbour lists and over all particles (exact arithmetic) *)
From Verif Require Export StageFacts NeighborThms.
From Coq Require Import Permutation PeanoNat.
From Verif Require Import SpecR.
#[local] Remove Hints F64 : typeclass_instances.
Open Scope R_scope.

(** the ring tactics need the carrier to be syntactically R *)
Ltac asR := match goal with |- @eq _ ?a ?b => change (@eq R a b) end.
Ltac ringR := apply Rminus_diag_uniq; ring.

Lemma rsum_app l l' : rsum (l ++ l') = rsum l + rsum l'.
Proof. induction l; simpl; [ring|]. rewrite IHl. ring. Qed.

Lemma rsum_perm l l' : Permutation l l' -> rsum l = rsum l'.
Proof. induction 1; simpl; lra. Qed.

Lemma rsum_nonneg l : (forall x, In x l -> 0 <= x) -> 0 <= rsum l.
Proof. induction l; simpl; intros H; [lra|]. specialize (IHl (fun x h => H x (or_intror h))). specialize (H a (or_introl eq_refl)). lra. Qed.

Lemma rsum_ext {A} (f g : A -> R) l : (forall a, In a l -> f a = g a) -> rsum (map f l) = rsum (map g l).
Proof. intros H. f_equal. now apply map_ext_in. Qed.

Lemma rsum_le {A} (f g : A -> R) l : (forall a, In a l -> f a <= g a) -> rsum (map f l) <= rsum (map g l).
Proof.
  induction l; simpl; intros H; [lra|]. specialize (IHl (fun x h => H x (or_intror h))). specialize (H a (or_introl eq_refl)). lra.
Qed.

Lemma rsum_mul {A} (f : A -> R) k l : rsum (map (fun a => k * f a) l) = k * rsum (map f l).
Proof. induction l; simpl; [ring|]. rewrite IHl. ring. Qed.

Lemma rsum_add {A} (f g : A -> R) l : rsum (map (fun a => f a + g a) l) = rsum (map f l) + rsum (map g l).
Proof. induction l; simpl; [ring|]. rewrite IHl. ring. Qed.

Lemma rsum_zero {A} (f : A -> R) l : (forall a, In a l -> f a = 0) -> rsum (map f l) = 0.
Proof. induction l; simpl; intros H; auto. rewrite H, IHl by auto. ring. Qed.

(** exchanging two sums *)
Lemma rsum_swap {A B} (f : A -> B -> R) la lb :
  rsum (map (fun a => rsum (map (f a) lb)) la) = rsum (map (fun b => rsum (map (fun a => f a b) la)) lb).
Proof.
  induction la as [|a la IH]; simpl.
  - symmetry. now apply rsum_zero.
  - rewrite IH, <- rsum_add. reflexivity.
Qed.

(** sum over a sublist = sum over all with zeros elsewhere *)
Lemma rsum_filter {A} (b : A -> bool) (f : A -> R) l :
  rsum (map f (filter b l)) = rsum (map (fun a => if b a then f a else 0) l).
Proof. induction l; simpl; auto. destruct (b a); simpl; rewrite IHl; ring. Qed.

Lemma rsum_fold (l : list R) a : fold_left Rplus l a = a + rsum l.
Proof. revert a; induction l; simpl; intros; [ring|]. rewrite IHl. ring. Qed.

Lemma NoDup_map_in {A B} (f : A -> B) l : (forall x y, In x l -> In y l -> f x = f y -> x = y) -> NoDup l -> NoDup (map f l).
Proof.
  intros H ND. induction ND; simpl; constructor.
  - rewrite in_map_iff. intros (y & E & Hy). assert (y = x) by (apply H; simpl; auto). congruence.
  - apply IHND. intros; apply H; simpl; auto.
Qed.

(** ** from neighbour lists to all particles *)
Definition in_range (re : R) (ps : list partR) (i : nat) (p : partR) (j : nat) : bool :=
  match nth_error ps j with
  | Some q => negb (Nat.eqb j i) && negb (p_type q =? Ghost)%Z && Rlt_bool (euclid (p_pos p) (p_pos q)) re
  | None => false
  end.

Lemma in_range_iff re ps i p j : in_range re ps i p j = true <->
  exists q, nth_error ps j = Some q /\ j <> i /\ p_type q <> Ghost /\ euclid (p_pos p) (p_pos q) < re.
Proof.
  unfold in_range. destruct (nth_error ps j) as [q|].
  - rewrite !andb_true_iff, !negb_true_iff, Nat.eqb_neq, Z.eqb_neq. split.
    + intros [[A B] C]. exists q. repeat split; auto. destruct (Rlt_bool_spec (euclid (p_pos p) (p_pos q)) re); auto; discriminate.
    + intros (q' & E & A & B & C). inv E. repeat split; auto. now apply Rlt_bool_true.
  - split; [discriminate|]. intros (q & E & _). discriminate.
Qed.

Lemma listed_perm re ps i p : listed re ps -> nth_error ps i = Some p -> p_type p <> Ghost ->
  Permutation (map (fun nb => Z.to_nat (nb_id nb)) (p_nbrs p)) (filter (in_range re ps i p) (seq 0 (List.length ps))).
Proof.
  intros L Hp Tp. destruct (L i p Hp Tp) as [ND L2].
  apply NoDup_Permutation.
  - rewrite <- map_map. apply NoDup_map_in; auto.
    intros x y Hx Hy E. apply in_map_iff in Hx, Hy. destruct Hx as (a & <- & Ha), Hy as (b & <- & Hb).
    apply L2 in Ha, Hb. destruct Ha as (j & q & _ & _ & _ & _ & ->), Hb as (j' & q' & _ & _ & _ & _ & ->). simpl in *. lia.
  - apply NoDup_filter, seq_NoDup.
  - intros j. rewrite in_map_iff, filter_In, in_range_iff. split.
    + intros (nb & <- & H). apply L2 in H. destruct H as (j & q & A & B & C & D & ->). simpl. rewrite Nat2Z.id. split; [|eauto 6].
      apply in_seq. assert (j < List.length ps)%nat by (apply nth_error_Some; congruence). lia.
    + intros (_ & q & A & B & C & D). exists (@mkNb Rnum (Z.of_nat j) (euclid (p_pos p) (p_pos q))). split; [apply Nat2Z.id|].
      apply L2. eauto 10.
Qed.

(** the value a neighbour entry stands for *)
Lemma listed_entry re ps i p nb : listed re ps -> nth_error ps i = Some p -> p_type p <> Ghost -> In nb (p_nbrs p) ->
  exists j q, nb_id nb = Z.of_nat j /\ nth_error ps j = Some q /\ j <> i /\ p_type q <> Ghost /\
    nb_dist nb = euclid (p_pos p) (p_pos q) /\ euclid (p_pos p) (p_pos q) < re.
Proof.
  intros L Hp Tp H. destruct (L i p Hp Tp) as [_ L2]. apply L2 in H. destruct H as (j & q & A & B & C & D & ->).
  exists j, q. simpl. auto 10.
Qed.

Lemma listed_sum re ps i p (F : nat -> partR -> R) : listed re ps -> nth_error ps i = Some p -> p_type p <> Ghost ->
  rsum (map (fun nb => match nth_error ps (Z.to_nat (nb_id nb)) with Some q => F (Z.to_nat (nb_id nb)) q | None => 0 end) (p_nbrs p)) =
  sum_others ps i (fun j q => if Rlt_dec (euclid (p_pos p) (p_pos q)) re then F j q else 0).
Proof.
  intros L Hp Tp.
  set (G := fun j => match nth_error ps j with Some q => F j q | None => 0 end).
  change (rsum (map (fun nb => G (Z.to_nat (nb_id nb))) (p_nbrs p)) = sum_others ps i (fun j q => if Rlt_dec (euclid (p_pos p) (p_pos q)) re then F j q else 0)).
  rewrite <- (map_map (fun nb => Z.to_nat (nb_id nb)) G).
  rewrite (rsum_perm _ _ (Permutation_map G (listed_perm re ps i p L Hp Tp))).
  rewrite rsum_filter. unfold sum_others. apply rsum_ext. intros j _.
  unfold in_range, G. destruct (nth_error ps j) as [q|]; auto.
  destruct (Nat.eqb j i); simpl; auto. destruct (p_type q =? Ghost)%Z; simpl; auto.
  destruct (Rlt_dec (euclid (p_pos p) (p_pos q)) re) as [h|h].
  - now rewrite Rlt_bool_true.
  - rewrite Rlt_bool_false; auto. lra.
Qed.

(** the neighbour search provides exact lists *)
Lemma search_listed re d ns (ps : list partR) ns' ps' :
  0 < re -> proper_domain d -> @used_searcher Rnum re d (List.length ps) ns -> indexed ps ->
  setNeighbors ns ps = Ok (ns', ps') -> listed re ps'.
Proof.
  intros Hre Hd U I E i p Hp Tp. split.
  - destruct (C02_lemma_R re d ns ps Hre Hd U I) as (ns1 & ps1 & E1 & H). rewrite E in E1. inv E1. apply (H i p Hp Tp).
  - destruct (C01_lemma re d ns ps Hre Hd U I) as (ns1 & ps1 & E1 & H). rewrite E in E1. inv E1. apply (H i p Hp Tp).
Qed.

(** exactness only depends on types, positions and lists *)
Lemma listed_ext re ps ps' : map (fun p => (p_type p, p_pos p, p_nbrs p)) ps = map (fun p => (p_type p, p_pos p, p_nbrs p)) ps' ->
  listed re ps -> listed re ps'.
Proof.
  intros E L.
  assert (K : forall i p', nth_error ps' i = Some p' -> exists p, nth_error ps i = Some p /\ p_type p = p_type p' /\ p_pos p = p_pos p' /\ p_nbrs p = p_nbrs p').
  { intros i p' H. assert (H' := BaseFacts.nth_error_map (fun p : partR => (p_type p, p_pos p, p_nbrs p)) ps' i). rewrite H, <- E, BaseFacts.nth_error_map in H'.
    destruct (nth_error ps i) as [p|]; simpl in H'; [|discriminate]. inv H'. exists p. auto. }
  assert (K' : forall i p, nth_error ps i = Some p -> exists p', nth_error ps' i = Some p' /\ p_type p' = p_type p /\ p_pos p' = p_pos p /\ p_nbrs p' = p_nbrs p).
  { intros i p H. assert (H' := BaseFacts.nth_error_map (fun p : partR => (p_type p, p_pos p, p_nbrs p)) ps i). rewrite H, E, BaseFacts.nth_error_map in H'.
    destruct (nth_error ps' i) as [p'|]; simpl in H'; [|discriminate]. inv H'. exists p'. auto. }
  intros i p' Hp Tp. destruct (K _ _ Hp) as (p & Hp0 & E1 & E2 & E3). rewrite <- E1 in Tp. destruct (L i p Hp0 Tp) as [A B].
  rewrite <- E3, <- E2. split; auto. intros nb. rewrite B. split; intros (j & q & Hq & N & Tq & D & ->).
  - destruct (K' _ _ Hq) as (q' & Hq' & F1 & F2 & F3). exists j, q'. rewrite F1, F2. auto 10.
  - destruct (K _ _ Hq) as (q0 & Hq' & F1 & F2 & F3). exists j, q0. rewrite F1, F2. auto 10.
Qed.

Lemma pow_neq_0_lt a : a <> 0 -> 0 < a ^ 2.
Proof. intros H. rewrite <- Rsqr_pow2. now apply Rsqr_pos_lt. Qed.

Lemma euclid_pos x y : x <> y -> 0 < euclid x y.
Proof.
  intros H. unfold euclid. apply sqrt_lt_R0.
  assert (A := pow2_ge_0 (vx x - vx y)). assert (B := pow2_ge_0 (vy x - vy y)). assert (C := pow2_ge_0 (vz x - vz y)).
  destruct (Req_dec (vx x) (vx y)) as [e1|n1]; [|assert (0 < (vx x - vx y) ^ 2) by (apply pow_neq_0_lt; lra); lra].
  destruct (Req_dec (vy x) (vy y)) as [e2|n2]; [|assert (0 < (vy x - vy y) ^ 2) by (apply pow_neq_0_lt; lra); lra].
  destruct (Req_dec (vz x) (vz y)) as [e3|n3]; [|assert (0 < (vz x - vz y) ^ 2) by (apply pow_neq_0_lt; lra); lra].
  exfalso. apply H. destruct x, y; simpl in *. congruence.
Qed.
