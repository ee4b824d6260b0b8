(** * Pressure calculation in exact arithmetic (C24, C26 - C29) *)
From Coq Require Import Reals Lra PeanoNat.
From Verif Require Export ExplicitFacts GradientR.
Open Scope R_scope.
#[local] Remove Hints F64 : typeclass_instances.

(** ** C24: the explicit law *)
Lemma C24_lemma (n0 c : R) (ps : list partR) : indexed ps -> 0 < n0 -> (forall p, In p ps -> 0 <= p_dens p) ->
  exists x : list R, @explicitCalc Rnum n0 c ps = Ok x /\ List.length x = List.length ps /\
    forall i p, nth_error ps i = Some p ->
      nth_error x i = Some (if (p_type p =? Ghost)%Z then 0 else Rmax 0 (c ^ 2 * p_dens p * ((p_nd p - n0) / n0))).
Proof.
  intros I H0 Hd. exists (map (@explicit1 Rnum n0 c) ps). split; [exact (@explicitCalc_map Rnum n0 c ps I)|]. split; [apply map_length|].
  intros i p Hp. rewrite BaseFacts.nth_error_map, Hp. simpl. f_equal. unfold explicit1, is_type. destruct (p_type p =? Ghost)%Z; auto.
  specialize (Hd p (nth_error_In _ _ Hp)).
  assert (K : 0 <= c ^ 2 * p_dens p) by (apply Rmult_le_pos; auto; apply pow2_ge_0).
  assert (V : 0 < / n0) by now apply Rinv_0_lt_compat.
  simpl nlt. destruct (Rlt_bool_spec n0 (p_nd p)) as [l|l].
  - rewrite Rmax_right; [simpl; unfold Rdiv; ring|]. apply Rmult_le_pos; auto. unfold Rdiv. apply Rmult_le_pos; lra.
  - rewrite Rmax_left; [reflexivity|]. assert (A : (p_nd p - n0) / n0 <= 0).
    { unfold Rdiv. replace 0 with (0 * / n0) by ring. apply Rmult_le_compat_r; simpl in *; lra. }
    replace 0 with (c ^ 2 * p_dens p * 0) by ring. now apply Rmult_le_compat_l.
Qed.

(** ** C26: no negative pressure *)
Lemma C26_lemma (S : @solver Rnum) det q ps ps' x : implicitCalc S det q ps = Ok (ps', x) ->
  (forall v, In v x -> 0 <= v) /\ (sized S -> List.length x = List.length ps /\ List.length ps' = List.length ps).
Proof.
  unfold implicitCalc. intros H. binds H. destruct r as [ps1 d]. binds H. inv H. split.
  - intros v Hv. apply in_map_iff in Hv. destruct Hv as (u & <- & _). simpl nlt. destruct (Rlt_bool_spec u 0); simpl in *; lra.
  - intros SZ. unfold ppe_solve in E0. binds E0. destruct r0 as [ts b]. destruct (S _ ts b) as [y|] eqn:ES; inv E0.
    apply SZ in ES. unfold removeNegative. rewrite map_length, ES.
    unfold generateBC in E. binds E. inv E. apply setBC_evolves in E0. apply Forall2_length in E0. lia.
Qed.

(** ** the Dirichlet table *)
Lemma dbc_fold (ps : list partR) d0 id : 
  dbc_find (fold_left (fun d p => if fs_eqb (p_bc p) Inner then d else dbc_set d (p_id p) 0) ps d0) id =
  if existsb (fun p => negb (fs_eqb (p_bc p) Inner) && (p_id p =? id)%Z) ps then Some 0 else dbc_find d0 id.
Proof.
  revert d0. induction ps as [|p ps IH]; intros d0; simpl; auto. rewrite IH. destruct (existsb _ ps); simpl; [now rewrite orb_true_r|].
  rewrite orb_false_r. destruct (fs_eqb (p_bc p) Inner); simpl; auto. unfold dbc_find, dbc_set. simpl. now destruct (p_id p =? id)%Z.
Qed.

Definition table (ps : list partR) : @dirichlet Rnum := fold_left (fun d p => if fs_eqb (p_bc p) Inner then d else dbc_set d (p_id p) 0) ps [].

Lemma table_find ps i p : indexed ps -> nth_error ps i = Some p ->
  dbc_find (table ps) (p_id p) = if fs_eqb (p_bc p) Inner then None else Some 0.
Proof.
  intros I Hp. unfold table. rewrite dbc_fold.
  replace (existsb _ ps) with (negb (fs_eqb (p_bc p) Inner)); [now destruct (fs_eqb (p_bc p) Inner)|].
  apply eq_true_iff_eq. rewrite existsb_exists. split.
  - intros B. exists p. split; [eapply nth_error_In; eauto|]. now rewrite B, Z.eqb_refl.
  - intros (q & Hq & B). apply andb_prop in B. destruct B as [B E]. apply Z.eqb_eq in E. apply In_nth_error in Hq. destruct Hq as [j Hq].
    rewrite (I i p Hp), (I j q Hq) in E. apply Nat2Z.inj in E. subst j. rewrite Hp in Hq. now inv Hq.
Qed.

(** ** the assembled system *)
Section System.
Variables (q : @ppe Rnum) (rs : R) (ps : list partR).
Hypotheses (L : listed rs ps) (I : indexed ps) (A : apart ps) (Hr : q_reL q <= rs).
Hypothesis GI : forall p, In p ps -> p_type p = Ghost -> p_bc p <> Inner.

Definition conduct (p : partR) (nb : @neighbor Rnum) : R := ppe_coeff q * w_spec (q_reL q) (nb_dist nb) / p_dens p.
Definition kept (nb : @neighbor Rnum) : bool :=
  match nth_error ps (Z.to_nat (nb_id nb)) with Some pj => negb (fs_eqb (p_bc pj) Ignored) && Rlt_bool (nb_dist nb) (q_reL q) | None => false end.
Definition diag : R := q_compress q / (q_dt q * q_dt q).
Definition rowT (p : partR) : list (@triplet Rnum) :=
  if fs_eqb (p_bc p) Inner then
    map (fun nb => @mkT Rnum (p_id p) (nb_id nb) (- conduct p nb)) (filter kept (p_nbrs p)) ++
    [@mkT Rnum (p_id p) (p_id p) (rsum (map (conduct p) (filter kept (p_nbrs p))) + diag)]
  else [@mkT Rnum (p_id p) (p_id p) 1].

Lemma inner_type p : In p ps -> p_bc p = Inner -> p_type p <> Ghost.
Proof. intros H B T. now apply (GI p H T). Qed.

Lemma fs_eqb_eq a b : fs_eqb a b = true <-> a = b.
Proof. destruct a, b; simpl; split; intros; try reflexivity; discriminate. Qed.

Lemma terms_run i p l ts c : nth_error ps i = Some p -> p_type p <> Ghost -> incl l (p_nbrs p) ->
  foldM (matrix_term q ps p) l (ts, c) =
  Ok (ts ++ map (fun nb => @mkT Rnum (p_id p) (nb_id nb) (- conduct p nb)) (filter kept l), c + rsum (map (conduct p) (filter kept l))).
Proof.
  intros Hp Tp. revert ts c. induction l as [|nb l IH]; intros ts c HI; simpl.
  - rewrite app_nil_r. repeat f_equal. ringR.
  - destruct (listed_get rs ps i p nb L Hp Tp (HI nb (or_introl eq_refl))) as (j & pj & E1 & E2 & E3 & N & Tq & E4 & E5).
    assert (P : 0 < nb_dist nb) by exact (listed_dist_pos rs ps i p nb L A Hp Tp (HI nb (or_introl eq_refl))).
    assert (KE : kept nb = negb (fs_eqb (p_bc pj) Ignored) && Rlt_bool (nb_dist nb) (q_reL q)) by (unfold kept; now rewrite E1, Nat2Z.id, E3).
    rewrite E2, KE. cbn [bind].
    assert (HL : incl l (p_nbrs p)) by (intros a Ha; apply HI; simpl; auto).
    destruct (fs_eqb (p_bc pj) Ignored); cbn [negb andb]; [now apply IH|]. simpl nlt.
    destruct (Rlt_bool (nb_dist nb) (q_reL q)); [|now apply IH].
    rewrite weight_R by auto. cbn [bind]. rewrite IH by auto. rewrite <- app_assoc. simpl. rewrite (I j pj E3), <- E1. f_equal. f_equal.
    + do 3 f_equal. unfold conduct. simpl. ringR.
    + unfold conduct at 2. simpl. ringR.
Qed.

Lemma row_build i p ts : nth_error ps i = Some p -> matrix_row q (table ps) ps p ts = Ok (ts ++ rowT p).
Proof.
  intros Hp. unfold matrix_row, dbc_contains, rowT. rewrite (table_find ps i p I Hp). destruct (fs_eqb (p_bc p) Inner) eqn:B; [|reflexivity].
  rewrite (terms_run i p (p_nbrs p) ts (nofZ 0) Hp); [|apply inner_type; [eapply nth_error_In; eauto|now apply fs_eqb_eq]|apply incl_refl].
  cbn [bind]. rewrite <- app_assoc. do 4 f_equal. unfold diag. simpl. f_equal. ringR.
Qed.

Lemma triplets_build : setMatrixTriplets q (table ps) ps = Ok (flat_map rowT ps).
Proof.
  unfold setMatrixTriplets. assert (K : forall l ts, incl l ps -> foldM (matrix_row q (table ps) ps) l ts = Ok (ts ++ flat_map rowT l)).
  { induction l as [|p l IH]; intros ts HI; simpl; [now rewrite app_nil_r|].
    assert (Hp := HI p (or_introl eq_refl)). apply In_nth_error in Hp. destruct Hp as [i Hp]. rewrite (row_build i p ts Hp). cbn [bind].
    rewrite IH by (intros a Ha; apply HI; simpl; auto). now rewrite app_assoc. }
  apply (K ps [] (incl_refl _)).
Qed.

Definition rhs (p : partR) : R :=
  if fs_eqb (p_bc p) Inner then q_gamma q * (1 / (q_dt q * q_dt q)) * ((p_nd p - q_n0N q) / q_n0N q) else 0.

Lemma source_build : setSourceTerm q (table ps) ps = Ok (map (fun p => Some (rhs p)) ps).
Proof.
  unfold setSourceTerm. rewrite <- (fill (fun p => Some (rhs p)) ps (repeat None (List.length ps)) I) by apply repeat_length.
  apply foldM_ext. intros p v Hp. apply In_nth_error in Hp. destruct Hp as [i Hp].
  unfold source1, dbc_contains, dbc_value, rhs. rewrite (table_find ps i p I Hp). destruct (fs_eqb (p_bc p) Inner); reflexivity.
Qed.

Lemma initialised_map {B} (f : B -> R) l : initialised (map (fun p => Some (f p)) l) = Ok (map f l).
Proof. induction l; simpl; auto. now rewrite IHl. Qed.

Lemma rowT_range p t : In p ps -> In t (rowT p) -> t_row t = p_id p /\ (0 <= t_col t < Z.of_nat (List.length ps))%Z.
Proof.
  intros Hp Ht. apply In_nth_error in Hp. destruct Hp as [i Hp]. assert (Hi : (i < List.length ps)%nat) by (apply nth_error_Some; congruence).
  assert (E := I i p Hp). unfold rowT in Ht. destruct (fs_eqb (p_bc p) Inner) eqn:B.
  - apply in_app_or in Ht. destruct Ht as [Ht|[<-|[]]]; [|simpl; lia]. apply in_map_iff in Ht. destruct Ht as (nb & <- & Hn). apply filter_In in Hn.
    destruct Hn as [Hn _]. apply fs_eqb_eq in B. assert (T := inner_type p (nth_error_In _ _ Hp) B).
    destruct (listed_get rs ps i p nb L Hp T Hn) as (j & pj & E1 & _ & E3 & _). simpl. split; auto. rewrite E1.
    assert (j < List.length ps)%nat by (apply nth_error_Some; congruence). lia.
  - destruct Ht as [<-|[]]. simpl. lia.
Qed.

Lemma setup_build : ppe_setup q (table ps) ps = Ok (flat_map rowT ps, map rhs ps).
Proof.
  unfold ppe_setup. rewrite source_build. cbn [bind]. rewrite triplets_build. cbn [bind].
  replace (forallb _ _) with true.
  - cbn [negb]. now rewrite initialised_map.
  - symmetry. apply forallb_forall. intros t Ht. apply in_flat_map in Ht. destruct Ht as (p & Hp & Ht).
    destruct (rowT_range p t Hp Ht) as [E1 E2]. apply In_nth_error in Hp. destruct Hp as [i Hp]. assert (Hi : (i < List.length ps)%nat) by (apply nth_error_Some; congruence).
    assert (E := I i p Hp). unfold triplet_in_range. rewrite E1, E. rewrite !andb_true_iff, !Z.leb_le, !Z.ltb_lt. lia.
Qed.

(** entries as sums *)
Lemma entry_sum (ts : list (@triplet Rnum)) i j : entry ts i j = rsum (map (fun t => if ((t_row t =? i) && (t_col t =? j))%Z then t_val t else 0) ts).
Proof.
  unfold entry. assert (K : forall a : R, fold_left (fun (a : R) (t : @triplet Rnum) => if ((t_row t =? i) && (t_col t =? j))%Z then a + t_val t else a) ts a =
    a + rsum (map (fun t => if ((t_row t =? i) && (t_col t =? j))%Z then t_val t else 0) ts)).
  { induction ts as [|t ts IH]; intros a; simpl; [ringR|]. rewrite IH.
    destruct ((t_row t =? i) && (t_col t =? j))%Z; simpl; ringR. }
  etransitivity; [exact (K 0)|]. ringR.
Qed.

Lemma rows_sum (f : @triplet Rnum -> R) i p : nth_error ps i = Some p ->
  rsum (map (fun t => if (t_row t =? Z.of_nat i)%Z then f t else 0) (flat_map rowT ps)) = rsum (map f (rowT p)).
Proof.
  intros Hp.
  assert (K : forall l k, (forall m a, nth_error l m = Some a -> nth_error ps (k + m) = Some a) ->
    rsum (map (fun t => if (t_row t =? Z.of_nat i)%Z then f t else 0) (flat_map rowT l)) =
    if (Nat.leb k i && Nat.ltb i (k + List.length l))%bool then rsum (map f (rowT p)) else 0).
  { induction l as [|a l IH]; intros k Hk; simpl.
    - rewrite Nat.add_0_r. destruct (Nat.leb_spec k i), (Nat.ltb_spec i k); simpl; auto; lia.
    - rewrite map_app, rsum_app, (IH (Datatypes.S k)) by (intros m b Hb; replace (S k + m)%nat with (k + S m)%nat by lia; apply Hk; exact Hb).
      assert (Ha : nth_error ps k = Some a) by (replace k with (k + 0)%nat by lia; apply Hk; reflexivity).
      assert (R0 : rsum (map (fun t => if (t_row t =? Z.of_nat i)%Z then f t else 0) (rowT a)) = if Nat.eqb k i then rsum (map f (rowT a)) else 0).
      { destruct (Nat.eqb_spec k i).
        - apply rsum_ext. intros t Ht. destruct (rowT_range a t (nth_error_In _ _ Ha) Ht) as [E _]. rewrite E, (I k a Ha). subst. now rewrite Z.eqb_refl.
        - apply rsum_zero. intros t Ht. destruct (rowT_range a t (nth_error_In _ _ Ha) Ht) as [E _]. rewrite E, (I k a Ha).
          destruct (Z.eqb_spec (Z.of_nat k) (Z.of_nat i)); auto; lia. }
      rewrite R0. replace (k + Datatypes.S (List.length l))%nat with (Datatypes.S k + List.length l)%nat by lia.
      destruct (Nat.eqb_spec k i) as [e|n].
      + subst k. rewrite Hp in Ha. inv Ha. rewrite Nat.leb_refl.
        destruct (Nat.leb_spec (Datatypes.S i) i); [lia|]. destruct (Nat.ltb_spec i (Datatypes.S i + List.length l)); [|lia]. simpl. ring.
      + destruct (Nat.leb_spec (Datatypes.S k) i), (Nat.leb_spec k i); try lia; simpl; try ring. }
  rewrite (K ps O) by auto. assert (i < List.length ps)%nat by (apply nth_error_Some; congruence).
  simpl. now rewrite (proj2 (Nat.ltb_lt _ _)).
Qed.

Lemma entry_row i j p : nth_error ps i = Some p ->
  entry (flat_map rowT ps) (Z.of_nat i) (Z.of_nat j) = rsum (map (fun t => if (t_col t =? Z.of_nat j)%Z then t_val t else 0) (rowT p)).
Proof.
  intros Hp. rewrite entry_sum. etransitivity; [|exact (rows_sum (fun t => if (t_col t =? Z.of_nat j)%Z then t_val t else 0) i p Hp)].
  apply rsum_ext. intros t _. now destruct (t_row t =? Z.of_nat i)%Z.
Qed.

Lemma pick (g : nat -> R) n c : (0 <= c < Z.of_nat n)%Z -> rsum (map (fun j => if (c =? Z.of_nat j)%Z then g j else 0) (seq 0 n)) = g (Z.to_nat c).
Proof.
  intros H. assert (K : forall m s, rsum (map (fun j => if (c =? Z.of_nat j)%Z then g j else 0) (seq s m)) =
    if ((Z.of_nat s <=? c) && (c <? Z.of_nat (s + m)))%Z then g (Z.to_nat c) else 0).
  { induction m as [|m IH]; intros s; simpl.
    - rewrite Nat.add_0_r. destruct (Z.leb_spec (Z.of_nat s) c), (Z.ltb_spec c (Z.of_nat s)); simpl; auto; lia.
    - rewrite IH. replace (s + Datatypes.S m)%nat with (Datatypes.S s + m)%nat by lia. destruct (Z.eqb_spec c (Z.of_nat s)).
      + subst c. rewrite Nat2Z.id. destruct (Z.leb_spec (Z.of_nat (Datatypes.S s)) (Z.of_nat s)); [lia|].
        destruct (Z.leb_spec (Z.of_nat s) (Z.of_nat s)); [|lia]. destruct (Z.ltb_spec (Z.of_nat s) (Z.of_nat (Datatypes.S s + m))); [|lia]. simpl. ring.
      + destruct (Z.leb_spec (Z.of_nat (Datatypes.S s)) c), (Z.leb_spec (Z.of_nat s) c); simpl; try lia; ring. }
  rewrite K. simpl. destruct (Z.leb_spec 0 c); [|lia]. destruct (Z.ltb_spec c (Z.of_nat n)); [|lia]. reflexivity.
Qed.

Lemma row_action (x : nat -> R) i p : nth_error ps i = Some p ->
  rsum (map (fun j => entry (flat_map rowT ps) (Z.of_nat i) (Z.of_nat j) * x j) (seq 0 (List.length ps))) =
  rsum (map (fun t => t_val t * x (Z.to_nat (t_col t))) (rowT p)).
Proof.
  intros Hp. etransitivity.
  - apply rsum_ext. intros j _. rewrite (entry_row i j p Hp). rewrite Rmult_comm, <- rsum_mul. reflexivity.
  - rewrite rsum_swap. apply rsum_ext. intros t Ht. destruct (rowT_range p t (nth_error_In _ _ Hp) Ht) as [_ C].
    rewrite <- (pick (fun j => t_val t * x j) _ _ C). apply rsum_ext. intros j _. destruct (t_col t =? Z.of_nat j)%Z; ring.
Qed.

(** the equation of one particle *)
Lemma row_equation (x : nat -> R) i p : nth_error ps i = Some p ->
  rsum (map (fun j => entry (flat_map rowT ps) (Z.of_nat i) (Z.of_nat j) * x j) (seq 0 (List.length ps))) =
  if fs_eqb (p_bc p) Inner then diag * x i + rsum (map (fun nb => conduct p nb * (x i - x (Z.to_nat (nb_id nb)))) (filter kept (p_nbrs p))) else x i.
Proof.
  intros Hp. rewrite (row_action x i p Hp). unfold rowT. rewrite (I i p Hp). destruct (fs_eqb (p_bc p) Inner).
  - rewrite map_app, rsum_app, map_map. simpl. rewrite Nat2Z.id.
    assert (K : forall l, rsum (map (fun nb => conduct p nb * (x i - x (Z.to_nat (nb_id nb)))) l) =
      x i * rsum (map (conduct p) l) + rsum (map (fun nb => - conduct p nb * x (Z.to_nat (nb_id nb))) l)).
    { induction l; simpl; [ring|]. rewrite IHl. ring. }
    rewrite K. ring.
  - simpl. rewrite Nat2Z.id. ring.
Qed.

Lemma conduct_nonneg i p nb : nth_error ps i = Some p -> p_type p <> Ghost -> In nb (p_nbrs p) -> 0 <= ppe_coeff q -> 0 < p_dens p -> 0 <= conduct p nb.
Proof.
  intros Hp Tp Hn Hc Hd. unfold conduct. assert (P := listed_dist_pos rs ps i p nb L A Hp Tp Hn).
  unfold Rdiv. apply Rmult_le_pos; [apply Rmult_le_pos; auto; now apply w_nonneg|left; now apply Rinv_0_lt_compat].
Qed.

Lemma argmin (x : list R) : x <> [] -> exists i, (i < List.length x)%nat /\ forall j, (j < List.length x)%nat -> nth i x 0 <= nth j x 0.
Proof.
  induction x as [|a x IH]; [congruence|]. intros _. destruct x as [|b x].
  - exists O. split; [simpl; lia|]. intros [|j] H; simpl in *; [lra|lia].
  - destruct IH as (i & Hi & M); [discriminate|]. destruct (Rle_dec a (nth i (b :: x) 0)) as [l|l].
    + exists O. split; [simpl; lia|]. intros [|j] H; [simpl; lra|]. change (a <= nth j (b :: x) 0). apply Rle_trans with (nth i (b :: x) 0); auto. apply M. simpl in *; lia.
    + exists (Datatypes.S i). split; [simpl in *; lia|]. intros [|j] H; [change (nth i (b :: x) 0 <= a); lra|]. change (nth i (b :: x) 0 <= nth j (b :: x) 0). apply M. simpl in *; lia.
Qed.

Definition good : Prop := 0 <= ppe_coeff q /\ 0 < diag /\ forall p, In p ps -> p_bc p = Inner -> 0 < p_dens p.

Lemma min_principle b x : good -> solves (List.length ps) (flat_map rowT ps) b x -> (forall v, In v b -> 0 <= v) -> forall v, In v x -> 0 <= v.
Proof.
  intros (Gc & Gd & Gp) (LX & LB & EQ) HB v Hv.
  destruct (argmin x) as (i & Hi & M); [intros ->; contradiction|].
  assert (K : 0 <= nth i x 0).
  { destruct (Rle_dec 0 (nth i x 0)) as [l|l]; auto. exfalso. apply Rnot_le_lt in l. rewrite LX in Hi.
    destruct (nth_error_ext_length ps i Hi) as [p Hp]. specialize (EQ i Hi). rewrite (row_equation (fun j => nth j x 0) i p Hp) in EQ.
    assert (BI : 0 <= nth i b 0) by (apply HB, nth_In; lia).
    destruct (fs_eqb (p_bc p) Inner) eqn:B; [|lra]. apply fs_eqb_eq in B. assert (T := inner_type p (nth_error_In _ _ Hp) B).
    assert (S1 : rsum (map (fun nb => conduct p nb * (nth i x 0 - nth (Z.to_nat (nb_id nb)) x 0)) (filter kept (p_nbrs p))) <= 0).
    { apply Rle_trans with (rsum (map (fun _ : @neighbor Rnum => 0) (filter kept (p_nbrs p)))); [|rewrite rsum_zero; auto; lra]. apply rsum_le. intros nb Hn. apply filter_In in Hn. destruct Hn as [Hn _].
      assert (C0 := conduct_nonneg i p nb Hp T Hn Gc (Gp p (nth_error_In _ _ Hp) B)).
      destruct (listed_get rs ps i p nb L Hp T Hn) as (j & pj & E1 & _ & E3 & _). rewrite E1, Nat2Z.id.
      assert (j < List.length ps)%nat by (apply nth_error_Some; congruence). assert (M1 := M j ltac:(lia)).
      assert (H1 : conduct p nb * (nth i x 0 - nth j x 0) <= conduct p nb * 0) by (apply Rmult_le_compat_l; [exact C0|apply Rle_minus; exact M1]). rewrite Rmult_0_r in H1. exact H1. }
    assert (S2 : diag * nth i x 0 < 0) by (apply Rlt_le_trans with (diag * 0); [now apply Rmult_lt_compat_l|lra]). lra. }
  apply (In_nth x v 0) in Hv. destruct Hv as (j & Hj & <-). apply Rle_trans with (nth i x 0); auto.
Qed.

Lemma solution_unique b x y : good -> solves (List.length ps) (flat_map rowT ps) b x -> solves (List.length ps) (flat_map rowT ps) b y -> x = y.
Proof.
  intros G SX SY.
  assert (K : forall x y, solves (List.length ps) (flat_map rowT ps) b x -> solves (List.length ps) (flat_map rowT ps) b y ->
     forall j, (j < List.length ps)%nat -> nth j y 0 <= nth j x 0).
  { clear x y SX SY. intros x y (LX & LB & EX) (LY & _ & EY) j Hj.
    set (z := map (fun k => nth k x 0 - nth k y 0) (seq 0 (List.length ps))).
    assert (NZ : forall k, (k < List.length ps)%nat -> nth k z 0 = nth k x 0 - nth k y 0).
    { intros k Hk. unfold z. rewrite (nth_indep _ 0 (nth (List.length ps) x 0 - nth (List.length ps) y 0)) by (rewrite map_length, seq_length; auto).
      rewrite (map_nth (fun k => nth k x 0 - nth k y 0)), seq_nth by auto. reflexivity. }
    assert (SZ : solves (List.length ps) (flat_map rowT ps) (repeat 0 (List.length ps)) z).
    { split; [unfold z; now rewrite map_length, seq_length|]. split; [apply repeat_length|]. intros i Hi.
      assert (N0 : nth i (repeat 0 (List.length ps)) 0 = 0) by apply nth_repeat. rewrite N0.
      transitivity (rsum (map (fun j => entry (flat_map rowT ps) (Z.of_nat i) (Z.of_nat j) * nth j x 0 + (-1) * (entry (flat_map rowT ps) (Z.of_nat i) (Z.of_nat j) * nth j y 0)) (seq 0 (List.length ps)))).
      - apply rsum_ext. intros k Hk. apply in_seq in Hk. rewrite NZ by lia. ring.
      - rewrite rsum_add, rsum_mul, (EX i Hi), (EY i Hi). ring. }
    assert (P := min_principle _ z G SZ (fun v h => Req_le _ _ (eq_sym (repeat_spec _ _ _ h)))).
    assert (P1 : 0 <= nth j z 0) by (apply P, nth_In; destruct SZ as [-> _]; auto). rewrite NZ in P1 by auto. lra. }
  destruct SX as (LX & LB & EX). destruct SY as (LY & LB' & EY). apply (nth_ext _ _ 0 0); [congruence|]. intros j Hj. rewrite LX in Hj.
  assert (K1 := K x y ltac:(repeat split; auto) ltac:(repeat split; auto) j Hj). assert (K2 := K y x ltac:(repeat split; auto) ltac:(repeat split; auto) j Hj). lra.
Qed.
End System.

(** ** C29: classification *)
Lemma isFree_R det rs ps i p : listed rs ps -> nth_error ps i = Some p -> p_type p <> Ghost ->
  exists b, @isFreeSurface Rnum det ps p = Ok b /\ (b = true <-> surface det rs ps i p).
Proof.
  intros L Hp Tp. destruct det as [thr n0|n0 l0 dr ndr]; unfold isFreeSurface, surface.
  - eexists. split; [reflexivity|]. simpl nlt. apply Rlt_bool_iff.
  - simpl nlt. destruct (Rlt_bool_spec (p_nd p) (ndr * n0)) as [l|l].
    2:{ exists false. split; [reflexivity|]. split; [discriminate|]. intros [HH _]. simpl in *; lra. }
    unfold subDetection. destruct (L i p Hp Tp) as [_ L2].
    destruct (p_nbrs p) as [|nb0 nbs] eqn:EN.
    + exists true. split; auto. split; auto. intros _. split; auto. left. intros j q Hq N Tq. destruct (Rle_dec rs (euclid (p_pos p) (p_pos q))); auto.
      exfalso. apply (proj2 (L2 (@mkNb Rnum (Z.of_nat j) (euclid (p_pos p) (p_pos q))))). exists j, q. repeat split; auto. lra.
    + set (F := fun (_ : nat) (q : partR) => diffR (p_pos q) (p_pos p)).
      rewrite (foldM_vadd _ (fun nb => match nth_error ps (Z.to_nat (nb_id nb)) with Some q => F (Z.to_nat (nb_id nb)) q | None => zeroR end)).
      * assert (LV := listed_vsum rs ps i p F L Hp Tp). rewrite EN in LV. rewrite LV. change (sumv _ _ _) with (offset_sum rs ps i p).
        set (o := offset_sum rs ps i p). clearbody o. cbn [bind]. eexists. split; [reflexivity|]. simpl. rewrite !Rplus_0_l.
        assert (NE : ~ (forall j q, nth_error ps j = Some q -> j <> i -> p_type q <> Ghost -> rs <= euclid (p_pos p) (p_pos q))).
        { intros H. destruct (proj1 (L2 nb0) (or_introl eq_refl)) as (j & q & A1 & A2 & A3 & A4 & _). specialize (H j q A1 A2 A3). lra. }
        destruct (Rlt_bool_spec (dr * l0) (Rabs (vx o))); [tauto|]. destruct (Rlt_bool_spec (dr * l0) (Rabs (vy o))); [tauto|].
        destruct (Rlt_bool_spec (dr * l0) (Rabs (vz o))); [tauto|]. split; [discriminate|]. intros (_ & [H'|[H'|[H'|H']]]); [tauto|lra|lra|lra].
      * intros nb acc Hin. rewrite <- EN in Hin. destruct (listed_get rs ps i p nb L Hp Tp Hin) as (j & q & E1 & E2 & E3 & _).
        rewrite E2. cbn [bind]. rewrite E1, Nat2Z.id, E3. reflexivity.
Qed.

Lemma C29_lemma det rs (ps : list partR) : listed rs ps -> exists ps', setBoundaryCondition det ps = Ok ps' /\ List.length ps' = List.length ps /\
  forall i p, nth_error ps i = Some p -> exists b, nth_error ps' i = Some (set_bc p b) /\
    (b = Ignored <-> p_type p = Ghost \/ p_type p = DummyWall) /\
    (b = FreeSurface <-> p_type p <> Ghost /\ p_type p <> DummyWall /\ surface det rs ps i p) /\
    (b = Inner <-> p_type p <> Ghost /\ p_type p <> DummyWall /\ ~ surface det rs ps i p).
Proof.
  intros L. rewrite setBoundaryCondition_mapM.
  assert (V : forall i p, nth_error ps i = Some p -> exists b, setBC1 det ps p = Ok (set_bc p b) /\
    (b = Ignored <-> p_type p = Ghost \/ p_type p = DummyWall) /\
    (b = FreeSurface <-> p_type p <> Ghost /\ p_type p <> DummyWall /\ surface det rs ps i p) /\
    (b = Inner <-> p_type p <> Ghost /\ p_type p <> DummyWall /\ ~ surface det rs ps i p)).
  { intros i p Hp. unfold setBC1. destruct (ghost_or_dummy p) eqn:G.
    - exists Ignored. split; auto. apply god_true in G. split; [tauto|]. split; (split; [discriminate|tauto]).
    - apply god_false in G. destruct (isFree_R det rs ps i p L Hp (proj1 G)) as (b & E & HB). rewrite E. cbn [bind]. eexists. split; [reflexivity|].
      destruct b.
      + split; [split; [discriminate|tauto]|]. split; [tauto|]. split; [discriminate|tauto].
      + split; [split; [discriminate|tauto]|]. split; [split; [discriminate|]|]; [intros (_ & _ & H); apply HB in H; discriminate|].
        split; auto. intros _. split; [tauto|]. split; [tauto|]. intros H. apply HB in H. discriminate. }
  destruct (mapM_total (setBC1 det ps) ps) as [ps' E].
  { intros p Hp. apply In_nth_error in Hp. destruct Hp as [i Hp]. destruct (V i p Hp) as (b & E & _). eauto. }
  exists ps'. split; auto. apply mapM_ok in E. split; [symmetry; eapply Forall2_length; eauto|].
  intros i p Hp. destruct (V i p Hp) as (b & E1 & H). destruct (Forall2_nth _ _ _ _ _ E Hp) as (p' & Hp' & E2). rewrite E1 in E2. inv E2. exists b. auto.
Qed.

(** with the distribution test on there are no more surface particles, in any arithmetic *)
Lemma C29_mono_lemma {N : Num} n0 l0 dr ndr (ps ps1 ps2 : list particle) i p1 p2 :
  setBoundaryCondition (ByDistribution n0 l0 dr ndr) ps = Ok ps1 -> setBoundaryCondition (ByNumberDensity ndr n0) ps = Ok ps2 ->
  nth_error ps1 i = Some p1 -> nth_error ps2 i = Some p2 -> p_bc p1 = FreeSurface -> p_bc p2 = FreeSurface.
Proof.
  rewrite !setBoundaryCondition_mapM. intros E1 E2 H1 H2 B. apply mapM_ok in E1, E2.
  destruct (Forall2_nth_r _ _ _ _ _ E1 H1) as (p & Hp & V1). destruct (Forall2_nth _ _ _ _ _ E2 Hp) as (p2' & H2' & V2).
  rewrite H2 in H2'. inv H2'. unfold setBC1 in *. destruct (ghost_or_dummy p); [inv V1; discriminate|].
  unfold isFreeSurface in *. cbn [bind] in V2. destruct (nlt (p_nd p) _); [inv V2; reflexivity|]. cbn [bind] in V1. inv V1. discriminate.
Qed.

(** ** the system as the implicit method assembles it *)
Lemma bc_frame det rs (ps ps' : list partR) : listed rs ps -> indexed ps -> apart ps -> setBoundaryCondition det ps = Ok ps' ->
  listed rs ps' /\ indexed ps' /\ apart ps' /\ List.length ps' = List.length ps /\
  (forall p, In p ps' -> p_type p = Ghost \/ p_type p = DummyWall -> p_bc p = Ignored) /\
  Forall2 (fun p p' => p' = set_bc p (p_bc p')) ps ps'.
Proof.
  intros L I A E. destruct (C29_lemma det rs ps L) as (ps1 & E1 & LN & H). rewrite E in E1. inv E1.
  assert (M : Forall2 (fun p p' => p' = set_bc p (p_bc p')) ps ps1).
  { apply Forall2_of_nth; auto. intros i a b Ha Hb. destruct (H i a Ha) as (c & Hc & _). rewrite Hc in Hb. inv Hb. reflexivity. }
  split; [|split; [|split; [|split; [|split]]]]; auto.
  - eapply listed_ext; [|exact L]. clear -M. induction M; simpl; auto. rewrite IHM, H. reflexivity.
  - intros i p Hp. destruct (Forall2_nth_r _ _ _ _ _ M Hp) as (a & Ha & ->). simpl. now apply I.
  - intros i j p q Hp Hq N Tp Tq. destruct (Forall2_nth_r _ _ _ _ _ M Hp) as (p0 & Hp0 & Ep). destruct (Forall2_nth_r _ _ _ _ _ M Hq) as (q0 & Hq0 & Eq).
    rewrite Ep, Eq in *. simpl in *. eapply (A i j); eauto.
  - intros p Hp T. apply In_nth_error in Hp. destruct Hp as [i Hp]. destruct (Forall2_nth_r _ _ _ _ _ M Hp) as (a & Ha & Ep).
    destruct (H i a Ha) as (c & Hc & HI & _). rewrite Hp in Hc. inv Hc. simpl in *. tauto.
Qed.

Lemma generate_R det (ps ps' : list partR) d : generateBC det ps = Ok (ps', d) -> setBoundaryCondition det ps = Ok ps' /\ d = table ps'.
Proof. unfold generateBC. intros H. binds H. inv H. auto. Qed.

(** C28, first half: what is assembled *)
Lemma C28_matrix_lemma det (q : @ppe Rnum) rs (ps : list partR) :
  listed rs ps -> indexed ps -> apart ps -> q_reL q <= rs -> exists ps' d ts b,
    generateBC det ps = Ok (ps', d) /\ ppe_setup q d ps' = Ok (ts, b) /\ List.length ps' = List.length ps /\ List.length b = List.length ps /\
    forall i p, nth_error ps' i = Some p ->
      (p_bc p <> Inner -> nth_error b i = Some 0 /\ forall j, entry ts (Z.of_nat i) (Z.of_nat j) = if Nat.eqb i j then 1 else 0) /\
      (p_bc p = Inner ->
         nth_error b i = Some (q_gamma q / (q_dt q) ^ 2 * ((p_nd p - q_n0N q) / q_n0N q)) /\
         (forall j pj, nth_error ps' j = Some pj -> j <> i ->
            entry ts (Z.of_nat i) (Z.of_nat j) =
            if (p_type pj =? Ghost)%Z || (p_type pj =? DummyWall)%Z then 0
            else - (2 * IZR (q_dim q) / (q_n0L q * q_lambda q) * w_spec (q_reL q) (euclid (p_pos p) (p_pos pj)) / p_dens p)) /\
         rsum (map (fun j => entry ts (Z.of_nat i) (Z.of_nat j)) (seq 0 (List.length ps))) = q_compress q / (q_dt q) ^ 2).
Proof.
  intros L I A Hr. destruct (C29_lemma det rs ps L) as (ps' & E & LN & HC). destruct (bc_frame det rs ps ps' L I A E) as (L' & I' & A' & _ & GB & M).
  assert (GI : forall p, In p ps' -> p_type p = Ghost -> p_bc p <> Inner) by (intros p Hp T; rewrite (GB p Hp); auto; discriminate).
  exists ps', (table ps'), (flat_map (rowT q ps') ps'), (map (rhs q) ps'). split; [unfold generateBC; rewrite E; reflexivity|].
  split; [eapply setup_build; eauto|]. split; auto. split; [now rewrite map_length|].
  intros i p Hp. split; intros B.
  - assert (B' : fs_eqb (p_bc p) Inner = false) by (destruct (p_bc p); auto; congruence). split.
    + rewrite BaseFacts.nth_error_map, Hp. simpl. unfold rhs. now rewrite B'.
    + intros j. rewrite (entry_row q rs ps' L' I' GI i j p Hp). unfold rowT. rewrite B', (I' i p Hp). simpl.
      destruct (Nat.eqb_spec i j) as [e|n]; [subst; rewrite Z.eqb_refl; ringR|]. destruct (Z.eqb_spec (Z.of_nat i) (Z.of_nat j)); [lia|ringR].
  - assert (B' : fs_eqb (p_bc p) Inner = true) by now rewrite B. assert (T : p_type p <> Ghost) by (intros T; now apply (GI p (nth_error_In _ _ Hp) T)).
    split; [|split].
    + rewrite BaseFacts.nth_error_map, Hp. simpl. unfold rhs. rewrite B'. f_equal. simpl. unfold Rdiv. rewrite !Rmult_1_r. ring.
    + intros j pj Hj N. rewrite (entry_row q rs ps' L' I' GI i j p Hp). unfold rowT. rewrite B', (I' i p Hp), map_app, rsum_app, map_map. simpl.
      destruct (Z.eqb_spec (Z.of_nat i) (Z.of_nat j)); [lia|].
      set (F := fun (k : nat) (pk : partR) => if Nat.eqb k j then if (p_type pj =? Ghost)%Z || (p_type pj =? DummyWall)%Z then 0
            else - (2 * IZR (q_dim q) / (q_n0L q * q_lambda q) * w_spec (q_reL q) (euclid (p_pos p) (p_pos pj)) / p_dens p) else 0).
      rewrite rsum_filter.
      transitivity (rsum (map (fun nb => match nth_error ps' (Z.to_nat (nb_id nb)) with Some pk => F (Z.to_nat (nb_id nb)) pk | None => 0 end) (p_nbrs p))).
      { rewrite Rplus_0_r, Rplus_0_r. apply rsum_ext. intros nb Hn. destruct (listed_get rs ps' i p nb L' Hp T Hn) as (k & pk & E1 & _ & E3 & Nk & Tk & E4 & E5).
        unfold kept. rewrite E1, Nat2Z.id, E3. unfold F. destruct (Nat.eqb_spec k j) as [e|n0].
        - subst k. rewrite Z.eqb_refl. rewrite Hj in E3. inv E3.
          assert (IG : fs_eqb (p_bc pk) Ignored = (p_type pk =? Ghost)%Z || (p_type pk =? DummyWall)%Z).
          { apply eq_true_iff_eq. rewrite fs_eqb_eq, orb_true_iff, !Z.eqb_eq. split; [|intros; apply GB; auto; eapply nth_error_In; eauto].
            destruct (Forall2_nth_r _ _ _ _ _ M Hj) as (a & Ha & Ea). destruct (HC j a Ha) as (c & Hc & HI & _). rewrite Hj in Hc. inv Hc. simpl. tauto. }
          rewrite IG. destruct (_ || _); simpl; auto. rewrite E4. destruct (Rlt_bool_spec (euclid (p_pos p) (p_pos pk)) (q_reL q)).
          + unfold conduct. rewrite E4. reflexivity.
          + rewrite w_out by auto. unfold Rdiv. ringR.
        - destruct (Z.eqb_spec (Z.of_nat k) (Z.of_nat j)); [lia|]. destruct (_ && _); reflexivity. }
      rewrite (listed_sum rs ps' i p F L' Hp T). unfold sum_others.
      transitivity (rsum (map (fun k => if (Z.of_nat j =? Z.of_nat k)%Z then F j pj else 0) (seq 0 (List.length ps')))).
      * apply rsum_ext. intros k Hk. apply in_seq in Hk. destruct (nth_error_ext_length ps' k) as [pk Hpk]; [lia|]. rewrite Hpk.
        destruct (Z.eqb_spec (Z.of_nat j) (Z.of_nat k)) as [e|n0].
        -- apply Nat2Z.inj in e. subst k. rewrite Hj in Hpk. inv Hpk. destruct (Nat.eqb_spec j i); [lia|]. unfold F. rewrite Nat.eqb_refl.
           destruct (Z.eqb_spec (p_type pk) Ghost); simpl; auto. destruct (Rlt_dec _ _); auto. rewrite w_out by lra.
           destruct (p_type pk =? DummyWall)%Z; auto. unfold Rdiv. ringR.
        -- assert (F0 : F k pk = 0) by (unfold F; destruct (Nat.eqb_spec k j); [subst; lia|reflexivity]). rewrite F0. destruct (Rlt_dec _ _); destruct ((k =? i)%nat || (p_type pk =? Ghost)%Z); reflexivity.
      * assert (JL : (j < List.length ps')%nat) by (apply nth_error_Some; congruence).
        rewrite (pick (fun _ => F j pj)) by lia. unfold F. now rewrite Nat.eqb_refl.
    + rewrite <- LN. transitivity (rsum (map (fun j => entry (flat_map (rowT q ps') ps') (Z.of_nat i) (Z.of_nat j) * 1) (seq 0 (List.length ps')))); [apply rsum_ext; intros; rewrite Rmult_1_r; reflexivity|].
      rewrite (row_equation q rs ps' L' I' GI (fun _ => 1) i p Hp), B'. rewrite rsum_zero by (intros; ring). unfold diag. simpl. unfold Rdiv. rewrite !Rmult_1_r. ring.
Qed.

(** C28, second half: well posed *)
Lemma C28_solution_lemma det (q : @ppe Rnum) rs (ps ps' : list partR) d ts b :
  listed rs ps -> indexed ps -> apart ps -> q_reL q <= rs ->
  0 < q_compress q -> q_dt q <> 0 -> 0 < q_n0L q -> 0 < q_lambda q -> (0 <= q_dim q)%Z ->
  (forall p, In p ps -> p_type p <> Ghost -> p_type p <> DummyWall -> 0 < p_dens p) ->
  generateBC det ps = Ok (ps', d) -> ppe_setup q d ps' = Ok (ts, b) ->
  (forall x y, solves (List.length ps) ts b x -> solves (List.length ps) ts b y -> x = y) /\
  ((forall v, In v b -> 0 <= v) -> forall x, solves (List.length ps) ts b x -> forall v, In v x -> 0 <= v).
Proof.
  intros L I A Hr Hc Ht Hn Hl Hdm Hd HG HS. apply generate_R in HG. destruct HG as [E ->].
  destruct (bc_frame det rs ps ps' L I A E) as (L' & I' & A' & LN & GB & M).
  assert (GI : forall p, In p ps' -> p_type p = Ghost -> p_bc p <> Inner) by (intros p Hp T; rewrite (GB p Hp); auto; discriminate).
  rewrite (setup_build q rs ps' L' I' A' GI) in HS. inv HS. rewrite <- LN.
  assert (G : good q ps').
  { split; [|split].
    - unfold ppe_coeff. simpl. unfold Rdiv. apply Rmult_le_pos; [|left; apply Rinv_0_lt_compat, Rmult_lt_0_compat; auto].
      apply Rmult_le_pos; [lra|]. apply IZR_le; auto.
    - unfold diag. apply Rdiv_lt_0_compat; auto. assert (K := Rsqr_pos_lt _ Ht). exact K.
    - intros p Hp B. apply In_nth_error in Hp as Hk. destruct Hk as [k Hk]. destruct (Forall2_nth_r _ _ _ _ _ M Hk) as (a & Ha & Ep).
      assert (TA : p_type a = p_type p) by (rewrite Ep; reflexivity). replace (p_dens p) with (p_dens a) by (rewrite Ep; reflexivity).
      apply Hd; [eapply nth_error_In; eauto| |]; rewrite TA; intros T; rewrite (GB _ Hp) in B by auto; discriminate. }
  split.
  - intros x y SX SY. exact (solution_unique q rs ps' L' I' A' GI _ x y G SX SY).
  - intros HB x SX. exact (min_principle q rs ps' L' I' A' GI _ x G SX HB).
Qed.

(** C27 *)
Lemma C27_lemma (S : @solver Rnum) det q rs (ps ps' : list partR) x i p :
  listed rs ps -> indexed ps -> apart ps -> q_reL q <= rs -> exact_solver S ->
  implicitCalc S det q ps = Ok (ps', x) -> nth_error ps' i = Some p -> prescribed p -> nth_error x i = Some 0.
Proof.
  intros L I A Hr ES H Hp HP. unfold implicitCalc in H. binds H. destruct r as [ps1 d]. binds H. inv H. apply generate_R in E. destruct E as [E ->].
  destruct (bc_frame det rs ps ps' L I A E) as (L' & I' & A' & LN & GB & M).
  assert (GI : forall p, In p ps' -> p_type p = Ghost -> p_bc p <> Inner) by (intros a Ha T; rewrite (GB a Ha); auto; discriminate).
  unfold ppe_solve in E0. rewrite (setup_build q rs ps' L' I' A' GI) in E0. cbn [bind] in E0. destruct (S _ _ _) as [y|] eqn:EY; inv E0.
  apply ES in EY. destruct EY as (LY & _ & EQ). assert (Hi : (i < List.length ps')%nat) by (apply nth_error_Some; congruence).
  specialize (EQ i Hi). rewrite (row_equation q rs ps' L' I' GI (fun j => @nth R j r 0) i p Hp) in EQ.
  assert (NB : p_bc p <> Inner).
  { destruct HP as [T|[T|T]]; auto; rewrite (GB p (nth_error_In _ _ Hp)) by auto; discriminate. }
  assert (B' : fs_eqb (p_bc p) Inner = false) by (destruct (p_bc p); auto; congruence). rewrite B' in EQ.
  assert (R0 : nth i (map (rhs q) ps') 0 = 0).
  { erewrite nth_error_nth; [|rewrite BaseFacts.nth_error_map, Hp; reflexivity]. unfold rhs. now rewrite B'. }
  rewrite R0 in EQ. unfold removeNegative. rewrite BaseFacts.nth_error_map. destruct (nth_error_ext_length r i) as [v Hv]; [assert (LY' : List.length r = List.length ps') by exact LY; rewrite LY'; exact Hi|]. rewrite Hv. simpl. f_equal.
  rewrite (nth_error_nth _ _ _ Hv) in EQ. subst v. destruct (Rlt_bool_spec 0 0); auto.
Qed.
