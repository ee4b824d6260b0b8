(** * The generators in exact arithmetic *)
From Coq Require Import Reals Lra.
From Verif Require Export GeneratorFacts SpecGenerator.
From Verif Require Import NumR.
Open Scope R_scope.
#[local] Remove Hints F64 : typeclass_instances.

Lemma ltb_eq a b (c : bool) : (c = true <-> a < b) -> Rlt_bool a b = c.
Proof. intros H. destruct (Rlt_bool_spec a b) as [L|L]; destruct c; auto; [destruct H as [_ H]; specialize (H L); discriminate|]. destruct H as [H _]. specialize (H eq_refl). lra. Qed.
Lemma in_range_R lo hi eps x (c : bool) : lo <= hi -> (c = true <-> lo - eps < x < hi + eps) -> @in_range Rnum (lo, hi) eps x = c.
Proof.
  intros L H. unfold in_range, sort2. cbn [fst snd nlt Rnum nsub nadd]. rewrite (Rlt_bool_false _ _ L).
  destruct (Rlt_bool_spec (lo - eps) x); destruct (Rlt_bool_spec x (hi + eps)); cbn [andb]; destruct c; auto;
    try (destruct H as [H _]; specialize (H eq_refl); lra); destruct H as [_ H]; symmetry; apply H; lra.
Qed.
Ltac Rvals := unfold dam_eps, hyd_at in *; unfold dam_l0, hyd_l0 in *; unfold dec in *; cbn [nofZ ndiv nmul nadd nsub nneg Rnum] in *.
(** a <= i <= b for integers, from strict inequalities with a slack *)
Lemma Zbounds a b i (x y : R) : x <= IZR a -> IZR a - 1 < x -> IZR b <= y -> y < IZR b + 1 -> (range a b i = true <-> x <= IZR i <= y).
Proof.
  intros H1 H2 H3 H4. rewrite range_iff. split.
  - intros [A B]. apply IZR_le in A, B. lra.
  - intros [A B]. split.
    + assert (IZR (a - 1) < IZR i) by (rewrite minus_IZR; lra). apply lt_IZR in H. lia.
    + assert (IZR i < IZR (b + 1)) by (rewrite plus_IZR; lra). apply lt_IZR in H. lia.
Qed.
Lemma Zbounds' a b i (x y : R) : x < IZR a -> IZR a - 1 <= x -> IZR b < y -> y <= IZR b + 1 -> (range a b i = true <-> x < IZR i < y).
Proof.
  intros H1 H2 H3 H4. rewrite range_iff. split.
  - intros [A B]. apply IZR_le in A, B. lra.
  - intros [A B]. split.
    + assert (IZR (a - 1) < IZR i) by (rewrite minus_IZR; lra). apply lt_IZR in H. lia.
    + assert (IZR i < IZR (b + 1)) by (rewrite plus_IZR; lra). apply lt_IZR in H. lia.
Qed.
Ltac btw x y := apply in_range_R; [Rvals; lra|]; rewrite (Zbounds' _ _ _ x y) by lra; Rvals; split; lra.
Lemma dam_x_R ix : @dam_x Rnum ix.
Proof. constructor; [btw (-401/100) (4401/100)|btw (-201/100) (4201/100)|btw (-1/100) (4001/100)|btw (-1/100) (1001/100)]. Qed.
Lemma dam_y_R iy : @dam_y Rnum iy.
Proof. constructor; [btw (-401/100) (2401/100)|btw (-201/100) (2401/100)|btw (2199/100) (2401/100)|btw (-1/100) (2401/100)|btw (-1/100) (2001/100)]. Qed.
Lemma round_int_R x z : x = IZR z -> in_int z = true -> @round_int Rnum x = Ok z.
Proof.
  intros -> H. unfold round_int, nround. cbn [ntrunc Rnum]. rewrite Ztrunc_IZR. cbn [nle nabs nsub nofZ dec ndiv Rnum].
  rewrite Rminus_diag_eq, Rabs_R0 by reflexivity. unfold dec. cbn [ndiv nofZ Rnum]. rewrite Rle_bool_false by lra. now rewrite H.
Qed.
Lemma dam_bounds_R : @dam_bounds Rnum.
Proof.
  constructor; [apply round_int_R..|]; try reflexivity; try (Rvals; lra). apply in_range_R; [cbn; lra|]. Rvals. split; [intros _; lra|reflexivity].
Qed.
Lemma dambreak_R dbg : @dambreak Rnum dbg = Ok (built dam_pos 0 dam_sites).
Proof. apply dambreak_sites; [apply dam_bounds_R|intros; apply dam_x_R|intros; apply dam_y_R]. Qed.

Lemma sdf_R : @sdf_separates Rnum.
Proof.
  intros b rx ry. unfold sdf, within, nmax, nmin. cbn [nlt nabs nsub nadd nmul ndiv nofZ nsqrt Rnum].
  set (qx := Rabs (rx - bx_cx b) - bx_sx b / 2). set (qy := Rabs (ry - bx_cy b) - bx_sy b / 2).
  assert (P : forall u, 0 <= R_sqrt.sqrt u) by (intros; apply R_sqrt.sqrt_pos).
  apply ltb_eq. rewrite andb_true_iff.
  destruct (Rlt_bool_spec qx 0) as [X|X]; destruct (Rlt_bool_spec qy 0) as [Y|Y].
  - split; [intros _|auto]. replace (0 * 0 + 0 * 0) with 0 by ring. rewrite R_sqrt.sqrt_0.
    destruct (Rlt_bool_spec qx qy); [rewrite (Rlt_bool_false 0 qy) by lra|rewrite (Rlt_bool_false 0 qx) by lra]; lra.
  - split; [intros [_ H]; discriminate|]. intros H. exfalso. revert H. rewrite (Rlt_bool_true qx qy) by lra.
    specialize (P (0 * 0 + qy * qy)). destruct (Rlt_bool 0 qy); lra.
  - split; [intros [H _]; discriminate|]. intros H. exfalso. revert H. rewrite (Rlt_bool_false qx qy) by lra.
    specialize (P (qx * qx + 0 * 0)). destruct (Rlt_bool 0 qx); lra.
  - split; [intros [H _]; discriminate|]. intros H. exfalso. revert H. specialize (P (qx * qx + qy * qy)).
    destruct (Rlt_bool_spec qx qy); [destruct (Rlt_bool 0 qy)|destruct (Rlt_bool 0 qx)]; lra.
Qed.
Lemma within_R c s r (b : bool) : (b = true <-> c - s / 2 < r < c + s / 2) -> @within Rnum c s r = b.
Proof.
  intros H. unfold within. cbn [nlt nabs nsub ndiv nofZ Rnum]. apply ltb_eq. rewrite H. unfold Rabs. destruct (Rcase_abs (r - c)); lra.
Qed.
Ltac win x y := apply within_R; cbn [hyd_empty hyd_fluid hyd_wall hyd_dummy newBox bx_cx bx_cy bx_sx bx_sy]; rewrite (Zbounds' _ _ _ x y) by lra; Rvals; split; lra.
Lemma hyd_x_R ix : @hyd_x Rnum ix.
Proof. constructor; [win (-155/10) (145/10)|win (-155/10) (145/10)|win (-175/10) (165/10)|win (-195/10) (185/10)]. Qed.
Lemma hyd_y_R iy : @hyd_y Rnum iy.
Proof. constructor; [win (395/10) (495/10)|win (-5/10) (395/10)|win (-25/10) (495/10)|win (-45/10) (495/10)]. Qed.
Lemma hyd_bounds_R : @hyd_bounds Rnum.
Proof. constructor; apply round_int_R; try reflexivity; Rvals; lra. Qed.
Lemma hydrostatic_R dbg : @hydrostatic Rnum dbg = Ok (built hyd_pos 0 hyd_sites).
Proof. apply hydrostatic_sites; [apply sdf_R|apply hyd_bounds_R|intros; apply hyd_x_R|intros; apply hyd_y_R]. Qed.

(** ** Places *)
Section Built.
Variable pos : Z -> Z -> @vec Rnum.
Variable at_ : Z -> R.
Hypothesis pos_at : forall i j, pos i j = mkV (at_ i : @num Rnum) (at_ j : @num Rnum) (0 : @num Rnum).
Hypothesis at_inj : forall i j, at_ i = at_ j -> i = j.
Lemma built_in k l p : In p (built pos k l) -> exists id s, In s l /\ p = made pos id s.
Proof.
  intros H. apply In_nth_error in H as [n H]. apply built_nth in H as (s & H1 & H2). exists (Z.of_nat (k + n)), s. split; [|exact H2].
  eapply nth_error_In, H1.
Qed.
Lemma in_built k l s : In s l -> exists id, In (made pos id s) (built pos k l).
Proof.
  revert k. induction l as [|a l IH]; intros k; [intros []|]. intros [->|H].
  - exists (Z.of_nat k). now left.
  - destruct (IH (S k) H) as [id Hid]. exists id. now right.
Qed.
Lemma built_places k l : map p_pos (built pos k l) = map (fun '(_, i, j) => pos i j) l.
Proof. revert k. induction l as [|[[t i] j] l IH]; intros k; [reflexivity|]. cbn. now rewrite IH. Qed.
Lemma built_nodup l : NoDup (map (fun '((_, i, j) : site) => (i, j)) l) -> NoDup (map (fun '((_, i, j) : site) => pos i j) l).
Proof.
  induction l as [|[[t i] j] l IH]; [constructor|]. cbn [map]. intros H. apply NoDup_cons_iff in H as [H1 H2]. constructor; [|auto].
  intros H. apply H1. apply in_map_iff in H as ([[t' i'] j'] & E & H). apply in_map_iff. exists (t', i', j'). split; [|exact H].
  rewrite !pos_at in E. injection E as E1 E2. apply at_inj in E1, E2. now subst.
Qed.
Lemma built_fills f m ix n iy grid region :
  (forall x, grid x <-> exists i, x = at_ i) ->
  (forall i j t, (t = f i j /\ t <> Ghost /\ (ix <= i < ix + Z.of_nat m)%Z /\ (iy <= j < iy + Z.of_nat n)%Z) <-> region t (at_ i) (at_ j)) ->
  fills grid region (built pos 0 (lattice f m ix n iy)).
Proof.
  intros HG HR. split; [|split; [|split]].
  - rewrite built_places. apply built_nodup, lattice_nodup.
  - apply Forall_forall. intros p H. apply built_in in H as (id & [[t i] j] & _ & ->). reflexivity.
  - intros k p H. apply built_nth in H as ([[t i] j] & _ & ->). reflexivity.
  - intros t x y z. split.
    + intros (p & H & T & P). apply built_in in H as (id & s & H & ->). apply lattice_in in H as (t' & i & j & -> & Hi & Hj & Ht & Hg).
      cbn [made newParticle p_type p_pos] in T, P. subst t'. rewrite pos_at in P. injection P as <- <- <-.
      split; [reflexivity|]. split; [apply HG; eauto|]. split; [apply HG; eauto|]. apply HR. auto.
    + intros (-> & GX & GY & HT). apply HG in GX as [i ->]. apply HG in GY as [j ->]. apply HR in HT as (Ht & Hg & Hi & Hj).
      destruct (in_built 0 (lattice f m ix n iy) (t, i, j)) as [id H].
      { apply lattice_in. exists t, i, j. auto. }
      exists (made pos id (t, i, j)). split; [exact H|]. split; [reflexivity|]. cbn. apply pos_at.
Qed.
End Built.

Definition dam_at (i : Z) : R := IZR i * (25 / 1000).
Lemma dam_inside a b c d (x0 x1 y0 y1 : R) i j :
  x0 = IZR a * (25/1000) -> x1 = IZR b * (25/1000) -> y0 = IZR c * (25/1000) -> y1 = IZR d * (25/1000) ->
  (inside x0 x1 y0 y1 (dam_at i) (dam_at j) <-> range a b i && range c d j = true).
Proof.
  intros -> -> -> ->. unfold inside, dam_at. rewrite andb_true_iff.
  rewrite (Zbounds a b i (IZR a) (IZR b)), (Zbounds c d j (IZR c) (IZR d)) by lra. lra.
Qed.
Lemma dam_regions i j t :
  (t = dam_site i j /\ t <> Ghost /\ (-4 <= i < -4 + Z.of_nat 49)%Z /\ (-4 <= j < -4 + Z.of_nat 33)%Z) <-> dam_region t (dam_at i) (dam_at j).
Proof.
  unfold dam_region. cbv zeta.
  rewrite (dam_inside 0 40 0 24 0 1 0 (6/10)), (dam_inside (-2) 42 (-2) 24 (-5/100) (105/100) (-5/100) (6/10)),
    (dam_inside (-4) 44 22 24 (-1/10) (11/10) (55/100) (6/10)), (dam_inside (-4) 44 (-4) 24 (-1/10) (11/10) (-1/10) (6/10)),
    (dam_inside 0 10 0 20 0 (25/100) 0 (5/10)) by lra.
  unfold dam_site. change (Z.of_nat 49) with 49%Z. change (Z.of_nat 33) with 33%Z. rewrite !andb_true_iff, !range_iff.
  destruct (range 0 10 i && range 0 20 j) eqn:E1; [|destruct (range 0 40 i && range 0 24 j) eqn:E2; [|destruct (range (-4) 44 i && range 22 24 j) eqn:E3;
    [|destruct (range (-2) 42 i && range (-2) 24 j) eqn:E4; [|destruct (range (-4) 44 i && range (-4) 24 j) eqn:E5]]]];
  repeat match goal with
  | H : (range _ _ _ && range _ _ _) = true |- _ => apply andb_true_iff in H as [? ?]
  | H : (range _ _ _ && range _ _ _) = false |- _ => apply andb_false_iff in H
  | H : range _ _ _ = true |- _ => apply range_iff in H
  end;
  repeat match goal with H : _ \/ _ |- _ => revert H end; unfold range; rewrite ?andb_false_iff, ?Z.leb_gt; unfold Fluid, Wall, DummyWall, Ghost; lia.
Qed.
Lemma dam_fills : fills (multiple (25/1000)) dam_region (built dam_pos 0 dam_sites).
Proof.
  apply (built_fills dam_pos dam_at).
  - reflexivity.
  - intros i j H. unfold dam_at in H. apply eq_IZR. lra.
  - intros x. reflexivity.
  - intros i j t. apply dam_regions.
Qed.

Definition hyd_mid (i : Z) : R := (12 / 1000) * (IZR i + 5 / 10).
Lemma hyd_inside a b c d (x0 x1 y0 y1 : R) i j :
  x0 = IZR a * (12/1000) -> x1 = IZR (b + 1) * (12/1000) -> y0 = IZR c * (12/1000) -> y1 = IZR (d + 1) * (12/1000) ->
  (strictly x0 x1 y0 y1 (hyd_mid i) (hyd_mid j) <-> range a b i && range c d j = true).
Proof.
  intros -> -> -> ->. unfold strictly, hyd_mid. rewrite andb_true_iff, !plus_IZR.
  rewrite (Zbounds' a b i (IZR a - 5/10) (IZR b + 5/10)), (Zbounds' c d j (IZR c - 5/10) (IZR d + 5/10)) by lra. lra.
Qed.
Lemma hyd_regions i j t :
  (t = hyd_site i j /\ t <> Ghost /\ (-19 <= i < -19 + Z.of_nat 38)%Z /\ (-4 <= j < -4 + Z.of_nat 54)%Z) <-> hyd_region t (hyd_mid i) (hyd_mid j).
Proof.
  unfold hyd_region. cbv zeta.
  rewrite (hyd_inside (-15) 14 0 39 (-18/100) (18/100) 0 (48/100)), (hyd_inside (-15) 14 40 49 (-18/100) (18/100) (48/100) (6/10)),
    (hyd_inside (-17) 16 (-2) 49 (-204/1000) (204/1000) (-24/1000) (6/10)), (hyd_inside (-19) 18 (-4) 49 (-228/1000) (228/1000) (-48/1000) (6/10)) by (simpl; lra).
  unfold hyd_site. change (Z.of_nat 38) with 38%Z. change (Z.of_nat 54) with 54%Z. rewrite !andb_true_iff, !range_iff.
  destruct (range (-15) 14 i && range 40 49 j) eqn:E1; [|destruct (range (-15) 14 i && range 0 39 j) eqn:E2; [|destruct (range (-17) 16 i && range (-2) 49 j) eqn:E3;
    [|destruct (range (-19) 18 i && range (-4) 49 j) eqn:E4]]];
  repeat match goal with
  | H : (range _ _ _ && range _ _ _) = true |- _ => apply andb_true_iff in H as [? ?]
  | H : (range _ _ _ && range _ _ _) = false |- _ => apply andb_false_iff in H
  | H : range _ _ _ = true |- _ => apply range_iff in H
  end;
  repeat match goal with H : _ \/ _ |- _ => revert H end; unfold range; rewrite ?andb_false_iff, ?Z.leb_gt; unfold Fluid, Wall, DummyWall, Ghost; lia.
Qed.
Lemma hyd_fills : fills (midpoint (12/1000)) hyd_region (built hyd_pos 0 hyd_sites).
Proof.
  apply (built_fills hyd_pos hyd_mid).
  - reflexivity.
  - intros i j H. unfold hyd_mid in H. apply eq_IZR. lra.
  - intros x. unfold midpoint, hyd_mid. split; intros [k ->]; exists k; lra.
  - intros i j t. apply hyd_regions.
Qed.
