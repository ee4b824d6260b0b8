(** * The weight function, reference values and the number density (exact arithmetic) *)
From Verif Require Export SumR.
From Coq Require Import Permutation PeanoNat.
From Verif Require Import SpecR.
#[local] Remove Hints F64 : typeclass_instances.
Open Scope R_scope.

(** ** weight *)
Lemma weight_R b d re : 0 < d -> @weight Rnum b d re = Ok (w_spec re d).
Proof.
  intros H. unfold weight, cassert. simpl. rewrite Rlt_bool_true by auto. rewrite andb_false_r. simpl. f_equal.
  unfold w_spec. destruct (Rlt_dec d re) as [h|h].
  - now rewrite Rle_bool_false.
  - rewrite Rle_bool_true; auto. lra.
Qed.

Lemma weight_assert d re : d <= 0 -> @weight Rnum true d re = AssertFail.
Proof. intros H. unfold weight, cassert. simpl. rewrite Rlt_bool_false by auto. reflexivity. Qed.

Lemma w_in d re : d < re -> w_spec re d = re / d - 1.
Proof. intros. unfold w_spec. now destruct (Rlt_dec d re). Qed.
Lemma w_out d re : re <= d -> w_spec re d = 0.
Proof. intros. unfold w_spec. destruct (Rlt_dec d re); lra. Qed.
Lemma w_pos d re : 0 < d -> d < re -> 0 < w_spec re d.
Proof.
  intros H H'. rewrite w_in by auto. cut (1 < re / d); [lra|]. apply Rmult_lt_reg_r with d; auto.
  unfold Rdiv. rewrite Rmult_assoc, Rinv_l; lra.
Qed.
Lemma w_nonneg d re : 0 < d -> 0 <= w_spec re d.
Proof. intros H. destruct (Rlt_dec d re); [left; now apply w_pos|]. rewrite w_out; lra. Qed.

Lemma w_decr d1 d2 re : 0 < d1 -> d1 < d2 -> d2 < re -> w_spec re d2 < w_spec re d1.
Proof.
  intros H1 H2 H3. rewrite !w_in by lra. apply Rplus_lt_compat_r. unfold Rdiv.
  apply Rmult_lt_compat_l; [lra|]. apply Rinv_lt_contravar; auto. apply Rmult_lt_0_compat; lra.
Qed.

Lemma w_limit re eps : 0 < re -> 0 < eps -> exists delta, 0 < delta < re /\ forall d, re - delta < d -> w_spec re d < eps.
Proof.
  intros Hr He. exists (re * eps / (1 + eps)).
  assert (P : 0 < re * eps / (1 + eps)) by (apply Rdiv_lt_0_compat; [apply Rmult_lt_0_compat|]; lra).
  assert (Q : re - re * eps / (1 + eps) = re / (1 + eps)) by (field; lra).
  assert (P' : 0 < re / (1 + eps)) by (apply Rdiv_lt_0_compat; lra).
  split; [lra|]. intros d Hd. rewrite Q in Hd. unfold w_spec. destruct (Rlt_dec d re); [|lra].
  assert (re < d * (1 + eps)). { apply Rmult_lt_compat_r with (r := 1 + eps) in Hd; [|lra]. unfold Rdiv in Hd. rewrite Rmult_assoc, Rinv_l in Hd; lra. }
  assert (re / d < 1 + eps); [|lra]. apply Rmult_lt_reg_r with d; [lra|]. unfold Rdiv. rewrite Rmult_assoc, Rinv_l; lra.
Qed.

Lemma C08_lemma b re d :
  (d <= 0 -> @weight Rnum true d re = AssertFail) /\
  (0 < d -> exists w, @weight Rnum b d re = Ok w /\ 0 <= w /\ (d < re -> w = re / d - 1) /\ (re <= d -> w = 0)).
Proof.
  split; [apply weight_assert|]. intros H. exists (w_spec re d).
  repeat split; [now apply weight_R|now apply w_nonneg|apply w_in|apply w_out].
Qed.

Lemma C08_decreasing b re d1 d2 : 0 < d1 -> d1 < d2 -> d2 < re ->
  exists w1 w2, @weight Rnum b d1 re = Ok w1 /\ @weight Rnum b d2 re = Ok w2 /\ w2 < w1.
Proof. intros. exists (w_spec re d1), (w_spec re d2). rewrite !weight_R by lra. repeat split. now apply w_decr. Qed.

Lemma C08_vanishes b re eps : 0 < re -> 0 < eps ->
  exists delta, 0 < delta /\ forall d, 0 < d -> re - delta < d -> exists w, @weight Rnum b d re = Ok w /\ 0 <= w < eps.
Proof.
  intros H He. destruct (w_limit re eps H He) as (delta & Hd & HL). exists delta. split; [lra|].
  intros d Hp H'. exists (w_spec re d). rewrite weight_R by auto. repeat split; auto. now apply w_nonneg.
Qed.

(** ** the lattice *)
Lemma dist_eq l0 a b e : 0 < l0 -> sqrt (l0 * IZR a * (l0 * IZR a) + l0 * IZR b * (l0 * IZR b) + l0 * IZR e * (l0 * IZR e)) = lattice_dist l0 (a, b, e).
Proof.
  intros H. unfold lattice_dist. rewrite <- (sqrt_square l0) at 7 by lra. rewrite <- sqrt_mult_alt by nra. f_equal. ring.
Qed.

Lemma sqz (a : Z) : IZR a ^ 2 = IZR (a * a).
Proof. rewrite mult_IZR. ring. Qed.

Lemma lattice_dist_z l0 a b e : lattice_dist l0 (a, b, e) = l0 * sqrt (IZR (a * a + b * b + e * e)).
Proof. unfold lattice_dist. now rewrite !sqz, <- !plus_IZR. Qed.

Lemma lattice_ge1 l0 c : 0 < l0 -> c <> (0, 0, 0)%Z -> l0 <= lattice_dist l0 c.
Proof.
  intros H Hc. destruct c as [[a b] e]. rewrite lattice_dist_z. rewrite <- (Rmult_1_r l0) at 1.
  apply Rmult_le_compat_l; [lra|]. rewrite <- sqrt_1. apply sqrt_le_1_alt. apply IZR_le.
  destruct (Z.eq_dec a 0), (Z.eq_dec b 0), (Z.eq_dec e 0); subst; try congruence; nia.
Qed.

Lemma lattice_outside l0 m c : 0 < l0 -> (0 <= m)%Z -> ~ within m c -> l0 * IZR (m + 1) <= lattice_dist l0 c.
Proof.
  intros H Hm Hc. destruct c as [[a b] e]. rewrite lattice_dist_z. apply Rmult_le_compat_l; [lra|].
  rewrite <- (sqrt_square (IZR (m + 1))) by (apply IZR_le; lia). apply sqrt_le_1_alt. rewrite <- mult_IZR. apply IZR_le.
  unfold within in Hc.
  assert (m + 1 <= Z.abs a \/ m + 1 <= Z.abs b \/ m + 1 <= Z.abs e)%Z by lia. nia.
Qed.

Lemma lattice_dist_pos l0 c : 0 < l0 -> c <> (0, 0, 0)%Z -> 0 < lattice_dist l0 c.
Proof. intros. generalize (lattice_ge1 l0 c H H0). lra. Qed.

(** ** the loops of RefValues *)
Lemma zrange_in lo hi z : In z (zrange lo hi) <-> (lo <= z < hi)%Z.
Proof.
  unfold zrange. rewrite in_map_iff. split.
  - intros (k & <- & H). apply in_seq in H. lia.
  - intros H. exists (Z.to_nat (z - lo)). split; [lia|]. apply in_seq. lia.
Qed.

Lemma zrange_NoDup lo hi : NoDup (zrange lo hi).
Proof. unfold zrange. apply NoDup_map_in; [|apply seq_NoDup]. intros; lia. Qed.

Lemma NoDup_app_intro {A} (l l' : list A) : NoDup l -> NoDup l' -> (forall a, In a l -> In a l' -> False) -> NoDup (l ++ l').
Proof.
  induction 1; simpl; intros H' HD; auto. constructor.
  - rewrite in_app_iff. intros [h|h]; auto. eapply HD; eauto.
  - apply IHNoDup; eauto.
Qed.

Lemma NoDup_flat_map {A B} (f : A -> list B) l :
  NoDup l -> (forall a, In a l -> NoDup (f a)) -> (forall a a' b, In a l -> In a' l -> In b (f a) -> In b (f a') -> a = a') -> NoDup (flat_map f l).
Proof.
  induction 1 as [|a l Ha ND IH]; simpl; intros HF HD; [constructor|].
  apply NoDup_app_intro.
  - apply HF; auto.
  - apply IH; intros; [apply HF|eapply HD]; eauto.
  - intros b Hb Hb'. apply in_flat_map in Hb'. destruct Hb' as (a' & Ha' & Hb').
    assert (a = a') by (eapply HD; eauto). congruence.
Qed.

Lemma ref_offsets_spec dim : (dim = 2 \/ dim = 3)%Z -> lattice_part dim 4 (ref_offsets dim).
Proof.
  intros Hd. unfold ref_offsets.
  set (zr := if (dim =? 2)%Z then (0, 1)%Z else (-4, 5)%Z).
  assert (Hz : forall z, (fst zr <= z < snd zr)%Z <-> (-4 <= z <= 4 /\ (dim = 2 -> z = 0))%Z).
  { subst zr. intros z. destruct Hd; subst; simpl; split; intros; [lia|lia|split; [lia|discriminate]|lia]. }
  destruct zr as [z0 z1]. simpl in Hz.
  set (L := flat_map _ _).
  assert (IL : forall a b e, In (a, b, e) L <-> (-4 <= a <= 4 /\ -4 <= b <= 4 /\ -4 <= e <= 4 /\ (dim = 2 -> e = 0))%Z).
  { intros a b e. subst L. rewrite in_flat_map. split.
    - intros (x & Hx & H). rewrite in_flat_map in H. destruct H as (y & Hy & H). apply in_map_iff in H.
      destruct H as (z & E & H). inv E. apply zrange_in in Hx, Hy, H. apply Hz in H. lia.
    - intros (Ha & Hb & He & H2). exists a. split; [apply zrange_in; lia|]. apply in_flat_map. exists b.
      split; [apply zrange_in; lia|]. apply in_map_iff. exists e. split; auto. apply zrange_in, Hz. auto. }
  split; [|split].
  - apply NoDup_filter. subst L. apply NoDup_flat_map; [apply zrange_NoDup| |].
    + intros x _. apply NoDup_flat_map; [apply zrange_NoDup| |].
      * intros y _. apply NoDup_map_in; [|apply zrange_NoDup]. intros; congruence.
      * intros y y' c _ _ H H'. apply in_map_iff in H, H'. destruct H as (? & <- & _), H' as (? & E & _). congruence.
    + intros x x' c _ _ H H'. apply in_flat_map in H, H'. destruct H as (? & _ & H), H' as (? & _ & H').
      apply in_map_iff in H, H'. destruct H as (? & <- & _), H' as (? & E & _). congruence.
  - intros [[a b] e] H. apply filter_In in H. destruct H as [H1 H2]. apply IL in H1. split.
    + intros E. inv E. discriminate.
    + simpl. tauto.
  - intros [[a b] e] [O1 O2] W. apply filter_In. simpl in *. split; [apply IL; tauto|].
    destruct (Z.eqb_spec a 0), (Z.eqb_spec b 0), (Z.eqb_spec e 0); auto. subst. congruence.
Qed.

Lemma ref_loop b (l0 re : R) L (n0 lam : R) : 0 < l0 -> (forall c, In c L -> c <> (0, 0, 0)%Z) ->
  foldM (@ref_step Rnum b l0 re) L (n0, lam) =
  Ok (n0 + rsum (map (fun c => w_spec re (lattice_dist l0 c)) L),
      lam + rsum (map (fun c => lattice_dist l0 c ^ 2 * w_spec re (lattice_dist l0 c)) L)).
Proof.
  intros Hl. revert n0 lam. induction L as [|[[x y] z] L IH]; intros n0 lam HL; simpl foldM.
  - simpl. f_equal. f_equal; ringR.
  - unfold ref_step. simpl. rewrite dist_eq by auto.
    assert (D : 0 < lattice_dist l0 (x, y, z)) by (apply lattice_dist_pos; auto; apply HL; simpl; auto).
    rewrite weight_R by auto. simpl bind. rewrite IH by (intros; apply HL; simpl; auto).
    assert (E2 : l0 * IZR x * (l0 * IZR x) + l0 * IZR y * (l0 * IZR y) + l0 * IZR z * (l0 * IZR z) = lattice_dist l0 (x, y, z) ^ 2).
    { rewrite <- dist_eq by auto. rewrite <- Rsqr_pow2. unfold Rsqr. rewrite sqrt_sqrt; auto.
      assert (K : forall u v w : R, 0 <= u * u + v * v + w * w) by (intros; nra). apply K. }
    rewrite E2. f_equal. simpl. f_equal; ringR.
Qed.

(** the sum over a finite part of the lattice containing the box of half width m is
    the sum over that box, when nothing outside the box has weight *)
Lemma lattice_sum_unique dim m (l0 : R) L L' (F : Z * Z * Z -> R) : 0 < l0 ->
  lattice_part dim m L -> lattice_part dim m L' -> (forall c, offset dim c -> ~ within m c -> F c = 0) ->
  rsum (map F L) = rsum (map F L').
Proof.
  intros Hl (ND & O & C) (ND' & O' & C') HF.
  set (W := fun c : Z * Z * Z => let '(a, b, e) := c in ((- m <=? a) && (a <=? m) && (- m <=? b) && (b <=? m) && (- m <=? e) && (e <=? m))%Z).
  assert (HW : forall c, W c = true <-> within m c).
  { intros [[a b] e]. unfold W, within. rewrite !andb_true_iff, !Z.leb_le. tauto. }
  assert (S : forall K, (forall c, In c K -> offset dim c) -> rsum (map F K) = rsum (map F (filter W K))).
  { intros K HK. rewrite rsum_filter. apply rsum_ext. intros c Hc. destruct (W c) eqn:E; auto. apply HF; auto.
    intros H. apply HW in H. congruence. }
  rewrite (S L O), (S L' O'). apply rsum_perm, Permutation_map, NoDup_Permutation; try now apply NoDup_filter.
  intros c. rewrite !filter_In. split; intros [H1 H2]; split; auto.
  - apply C'; auto. now apply HW.
  - apply C; auto. now apply HW.
Qed.

Lemma rsum_lt {A} (f g : A -> R) l a : (forall x, In x l -> f x <= g x) -> In a l -> f a < g a -> rsum (map f l) < rsum (map g l).
Proof.
  induction l as [|x l IH]; simpl; intros H Ha Hlt; [contradiction|].
  destruct Ha as [->|Ha].
  - assert (rsum (map f l) <= rsum (map g l)) by (apply rsum_le; auto). lra.
  - assert (f x <= g x) by auto. assert (rsum (map f l) < rsum (map g l)) by (apply IH; auto). lra.
Qed.

Lemma le_div a b n : 0 < n -> a * n <= b -> a <= b / n.
Proof. intros H H'. apply Rmult_le_reg_r with n; auto. unfold Rdiv. rewrite (Rmult_assoc b), Rinv_l; lra. Qed.
Lemma div_lt a b n : 0 < n -> b < a * n -> b / n < a.
Proof. intros H H'. apply Rmult_lt_reg_r with n; auto. unfold Rdiv. rewrite (Rmult_assoc b), Rinv_l; lra. Qed.

Lemma C09_lemma b dim l0 re : (dim = 2 \/ dim = 3)%Z -> 0 < l0 -> l0 < re ->
  exists rv, @newRefValues Rnum b dim l0 re = Ok rv /\
    0 < rv_n0 rv /\ l0 ^ 2 <= rv_lambda rv < re ^ 2 /\
    (re <= 5 * l0 -> forall L, lattice_part dim 4 L ->
       rv_n0 rv = rsum (map (fun c => w_spec re (lattice_dist l0 c)) L) /\
       rv_lambda rv = rsum (map (fun c => lattice_dist l0 c ^ 2 * w_spec re (lattice_dist l0 c)) L) / rsum (map (fun c => w_spec re (lattice_dist l0 c)) L)) /\
    (5 * l0 < re -> forall L, lattice_part dim 5 L -> rv_n0 rv < rsum (map (fun c => w_spec re (lattice_dist l0 c)) L)).
Proof.
  intros Hd Hl Hr. assert (P := ref_offsets_spec dim Hd). pose proof P as (ND & O & C).
  set (n0 := rsum (map (fun c => w_spec re (lattice_dist l0 c)) (ref_offsets dim))).
  set (la := rsum (map (fun c => lattice_dist l0 c ^ 2 * w_spec re (lattice_dist l0 c)) (ref_offsets dim))).
  assert (DP : forall c, In c (ref_offsets dim) -> 0 < lattice_dist l0 c) by (intros c Hc; apply lattice_dist_pos; auto; apply O; auto).
  assert (N0 : 0 < n0).
  { assert (E : rsum (map (fun _ => 0) (ref_offsets dim)) = 0) by (now apply rsum_zero). rewrite <- E.
    assert (I1 : In (1, 0, 0)%Z (ref_offsets dim)). { apply C; [|simpl; lia]. split; [discriminate|reflexivity]. }
    apply rsum_lt with (1, 0, 0)%Z; auto.
    - intros c Hc. apply w_nonneg. auto.
    - apply w_pos; auto. rewrite lattice_dist_z. simpl. rewrite sqrt_1. lra. }
  exists (@mkRV Rnum n0 (la / n0)). split.
  { unfold newRefValues, cassert. replace ((dim =? 2) || (dim =? 3))%Z with true by (destruct Hd; subst; reflexivity).
    rewrite andb_false_r. simpl. rewrite Rlt_bool_true by auto. rewrite andb_false_r. simpl.
    rewrite ref_loop; auto; [|intros c Hc; apply O; auto]. simpl. rewrite !Rplus_0_l. reflexivity. }
  simpl. split; [exact N0|]. split; [split|split].
  - apply le_div; auto.
    unfold n0, la. change (l0 * (l0 * 1)) with (l0 ^ 2). rewrite <- rsum_mul. apply rsum_le. intros c Hc. apply Rmult_le_compat_r; [apply w_nonneg; auto|].
    apply pow_incr. split; [lra|]. apply lattice_ge1; auto. apply O; auto.
  - apply div_lt; auto.
    unfold n0, la. change (re * (re * 1)) with (re ^ 2). rewrite <- rsum_mul. apply rsum_lt with (1, 0, 0)%Z.
    + intros c Hc. specialize (DP c Hc). destruct (Rlt_dec (lattice_dist l0 c) re).
      * apply Rmult_le_compat_r; [apply w_nonneg; auto|]. apply pow_incr. lra.
      * rewrite w_out; lra.
    + apply C; [|simpl; lia]. split; [discriminate|reflexivity].
    + assert (E1 : lattice_dist l0 (1, 0, 0)%Z = l0) by (rewrite lattice_dist_z; simpl; rewrite sqrt_1; lra). rewrite E1.
      apply Rmult_lt_compat_r; [apply w_pos; auto|]. simpl. nra.
  - intros H5 L HL.
    assert (HF : forall c, offset dim c -> ~ within 4 c -> w_spec re (lattice_dist l0 c) = 0).
    { intros c _ Hc. apply w_out. apply lattice_outside with (l0 := l0) in Hc; auto; [|lia]. simpl in Hc. lra. }
    assert (E1 : n0 = rsum (map (fun c => w_spec re (lattice_dist l0 c)) L)) by (apply (lattice_sum_unique dim 4 l0); auto).
    split; auto. rewrite <- E1. unfold la. f_equal. apply (lattice_sum_unique dim 4 l0); auto.
    intros c Hc Hc'. rewrite HF by auto. ring.
  - intros H5 L HL.
    (* the part visited by the loops is a part of L *)
    set (W := fun c : Z * Z * Z => let '(a, b, e) := c in ((- 4 <=? a) && (a <=? 4) && (- 4 <=? b) && (b <=? 4) && (- 4 <=? e) && (e <=? 4))%Z).
    assert (HW : forall c, W c = true <-> within 4 c).
    { intros [[a b'] e]. unfold W, within. rewrite !andb_true_iff, !Z.leb_le. tauto. }
    destruct HL as (ND' & O' & C').
    assert (E1 : n0 = rsum (map (fun c => if W c then w_spec re (lattice_dist l0 c) else 0) L)).
    { rewrite <- rsum_filter. apply rsum_perm, Permutation_map, NoDup_Permutation; auto; [now apply NoDup_filter|].
      intros c. rewrite filter_In, HW. split.
      - intros Hc. assert (Wc : within 4 c).
        { clear -Hc Hd. unfold ref_offsets in Hc. destruct c as [[a b] e].
          destruct (if (dim =? 2)%Z then (0, 1)%Z else (-4, 5)%Z) as [z0 z1] eqn:Ez. apply filter_In in Hc. destruct Hc as [Hc _].
          apply in_flat_map in Hc. destruct Hc as (x & Hx & Hc). apply in_flat_map in Hc. destruct Hc as (y & Hy & Hc).
          apply in_map_iff in Hc. destruct Hc as (z & E & Hz). inv E. apply zrange_in in Hx, Hy, Hz.
          destruct (dim =? 2)%Z; inv Ez; simpl; lia. }
        split; auto. apply C'; [apply O; auto|]. destruct c as [[? ?] ?]. simpl in *. lia.
      - intros [H1 H2]. apply C; auto. }
    rewrite E1. apply rsum_lt with (5, 0, 0)%Z.
    + intros c Hc. destruct (W c); [lra|]. apply w_nonneg, lattice_dist_pos; auto. apply O'; auto.
    + apply C'; [|simpl; lia]. split; [discriminate|reflexivity].
    + assert (E5 : lattice_dist l0 (5, 0, 0)%Z = 5 * l0).
      { rewrite lattice_dist_z. simpl. replace 25 with (5 * 5) by lra. rewrite sqrt_square; lra. }
      change (W (5, 0, 0)%Z) with false. cbv iota. rewrite E5. apply w_pos; lra.
Qed.

(** ** the number density *)
Lemma fold_weights b re l n : (forall nb, In nb l -> 0 < nb_dist nb) ->
  foldM (fun nb n => w <- @weight Rnum b (nb_dist nb) re ;; Ok (n + w)) l n = Ok (n + rsum (map (fun nb => w_spec re (nb_dist nb)) l)).
Proof.
  revert n. induction l as [|nb l IH]; simpl; intros n H.
  - now rewrite Rplus_0_r.
  - rewrite weight_R by auto. simpl. rewrite IH by auto. f_equal. ring.
Qed.

Lemma listed_dist_pos re ps i p nb : listed re ps -> apart ps -> nth_error ps i = Some p -> p_type p <> Ghost -> In nb (p_nbrs p) -> 0 < nb_dist nb.
Proof.
  intros L A Hp Tp H. destruct (listed_entry re ps i p nb L Hp Tp H) as (j & q & _ & Hq & N & Tq & -> & _).
  apply euclid_pos. apply (A i j); auto.
Qed.

Lemma euclid_nonneg x y : 0 <= euclid x y.
Proof. apply sqrt_pos. Qed.

(** the value stored for a particle that is not Ghost *)
Lemma nd_value s re rs ps i p w : listed rs ps -> apart ps -> re <= rs -> nth_error ps i = Some p -> p_type p <> Ghost ->
  @calNumberDensity1 Rnum s re w p = Ok (set_nd p (sum_others ps i (fun _ q => w_spec re (euclid (p_pos p) (p_pos q))))).
Proof.
  intros L A Hr Hp Tp. unfold calNumberDensity1. rewrite (proj2 (is_type_neq _ _) Tp).
  simpl. rewrite fold_weights by (intros; eapply listed_dist_pos; eauto). cbn [bind]. f_equal. f_equal. rewrite Rplus_0_l.
  transitivity (rsum (map (fun nb => match nth_error ps (Z.to_nat (nb_id nb)) with Some q => w_spec re (euclid (p_pos p) (p_pos q)) | None => 0 end) (p_nbrs p))).
  - apply rsum_ext. intros nb H. destruct (listed_entry rs ps i p nb L Hp Tp H) as (j & q & E & Hq & _ & _ & D & _).
    rewrite E, Nat2Z.id, Hq, D. reflexivity.
  - rewrite (listed_sum rs ps i p (fun _ q => w_spec re (euclid (p_pos p) (p_pos q))) L Hp Tp).
    unfold sum_others. apply rsum_ext. intros j _. destruct (nth_error ps j) as [q|]; auto.
    destruct (Nat.eqb j i || (p_type q =? Ghost)%Z); auto.
    destruct (Rlt_dec (euclid (p_pos p) (p_pos q)) rs); auto. symmetry. apply w_out. lra.
Qed.

Lemma calNumberDensity_R s re rs ps : listed rs ps -> apart ps -> re <= rs ->
  exists ps', @calNumberDensity Rnum s re ps = Ok ps' /\
    List.length ps' = List.length ps /\
    forall i p, nth_error ps i = Some p -> exists p', nth_error ps' i = Some p' /\
      (p_type p = Ghost -> p' = set_nd p 0) /\
      (p_type p <> Ghost -> p' = set_nd p (sum_others ps i (fun _ q => w_spec re (euclid (p_pos p) (p_pos q))))).
Proof.
  intros L A Hr. rewrite calNumberDensity_mapM.
  assert (T : exists ps', mapM (@calNumberDensity1 Rnum s re ps) ps = Ok ps').
  { apply mapM_total. intros p Hp. apply In_nth_error in Hp. destruct Hp as [i Hp].
    destruct (Z.eq_dec (p_type p) Ghost) as [e|n].
    - exists (set_nd p 0). unfold calNumberDensity1. now rewrite (proj2 (is_type_eq _ _) e).
    - eexists. eapply nd_value; eauto. }
  destruct T as [ps' E]. exists ps'. split; auto. apply mapM_ok in E. split; [symmetry; eapply Forall2_length; eauto|].
  intros i p Hp. destruct (Forall2_nth _ _ _ _ _ E Hp) as (p' & Hp' & E'). exists p'. split; auto. split; intros T.
  - unfold calNumberDensity1 in E'. rewrite (proj2 (is_type_eq _ _) T) in E'. now inv E'.
  - erewrite nd_value in E' by eauto. now inv E'.
Qed.

Lemma search_apart re d ns (ps : list partR) ns' ps' : used_searcher re d (List.length ps) ns ->
  setNeighbors ns ps = Ok (ns', ps') -> apart ps -> apart ps'.
Proof.
  intros U E A i j p q Hp Hq N Tp Tq.
  destruct (search_kept _ _ _ _ _ _ _ _ U E Hp Tp) as (p0 & Hp0 & T0 & _ & ->).
  destruct (search_kept _ _ _ _ _ _ _ _ U E Hq Tq) as (q0 & Hq0 & T1 & _ & ->). eapply (A i j); eauto.
Qed.

(** C10: the search followed by the number density *)
Lemma C10_lemma re d ns (ps : list partR) s :
  0 < re -> proper_domain d -> @used_searcher Rnum re d (List.length ps) ns -> indexed ps -> s_reN s <= re -> apart ps ->
  exists ns1 ps1 ps2, setNeighbors ns ps = Ok (ns1, ps1) /\ calNumberDensity s (s_reN s) ps1 = Ok ps2 /\
    List.length ps2 = List.length ps1 /\
    forall i p, nth_error ps1 i = Some p -> exists p', nth_error ps2 i = Some p' /\
      (p_type p = Ghost -> p' = set_nd p 0) /\
      (p_type p <> Ghost -> p' = set_nd p (sum_others ps1 i (fun _ q => w_spec (s_reN s) (euclid (p_pos p) (p_pos q))))).
Proof.
  intros Hre Hd U I Hr A. destruct (C01_lemma re d ns ps Hre Hd U I) as (ns1 & ps1 & E & _).
  exists ns1, ps1. assert (L := search_listed re d ns ps ns1 ps1 Hre Hd U I E).
  assert (A1 : apart ps1) by (eapply search_apart; eauto).
  destruct (calNumberDensity_R s (s_reN s) re ps1 L A1 Hr) as (ps2 & E2 & Ln & H). exists ps2. auto 10.
Qed.

Lemma sum_others_map ps i (f : partR -> R) : sum_others ps i (fun _ q => f q) = rsum (map f (others ps i)).
Proof.
  unfold sum_others, others. induction (seq 0 (List.length ps)) as [|j l IH]; simpl; auto.
  rewrite map_app, rsum_app, <- IH. destruct (nth_error ps j) as [q|]; simpl; [|ring].
  destruct (Nat.eqb j i || (p_type q =? Ghost)%Z); simpl; ring.
Qed.

Lemma lattice_at_dist l0 x c : 0 < l0 -> euclid x (lattice_at l0 x c) = lattice_dist l0 c.
Proof.
  intros H. destruct c as [[a b] e]. rewrite <- dist_eq by auto. unfold euclid. simpl. f_equal. ring.
Qed.

(** the number density at a lattice site is n0 *)
Lemma C10_lattice_lemma b dim l0 re rv ps i p L far :
  (dim = 2 \/ dim = 3)%Z -> 0 < l0 -> l0 < re -> re <= 5 * l0 -> @newRefValues Rnum b dim l0 re = Ok rv ->
  lattice_part dim 4 L -> (forall x, In x far -> re <= euclid (p_pos p) x) ->
  Permutation (map p_pos (others ps i)) (map (lattice_at l0 (p_pos p)) L ++ far) ->
  sum_others ps i (fun _ q => w_spec re (euclid (p_pos p) (p_pos q))) = rv_n0 rv.
Proof.
  intros Hd Hl Hr H5 E HL HF HP. destruct (C09_lemma b dim l0 re Hd Hl Hr) as (rv' & E' & _ & _ & H & _).
  rewrite E in E'. inv E'. destruct (H H5 L HL) as [-> _].
  rewrite (sum_others_map ps i (fun q => w_spec re (euclid (p_pos p) (p_pos q)))).
  rewrite <- (map_map p_pos (fun x => w_spec re (euclid (p_pos p) x))).
  rewrite (rsum_perm _ _ (Permutation_map _ HP)). rewrite map_app, rsum_app.
  rewrite (rsum_zero _ far), Rplus_0_r by (intros; apply w_out; auto). rewrite map_map. apply rsum_ext.
  intros c _. now rewrite lattice_at_dist.
Qed.
