(** * Numbering and orientation are immaterial (C69, C70), exact arithmetic *)
From Coq Require Import Reals Lra Psatz PeanoNat Permutation.
From Verif Require Export StepR SpecSym.
Open Scope R_scope.
#[local] Remove Hints F64 : typeclass_instances.

(** ** Sums under a renumbering *)
Section Renumber.
Variable sigma : nat -> nat.
Variable n : nat.
Hypothesis INJ : forall i j, (i < n)%nat -> (j < n)%nat -> sigma i = sigma j -> i = j.
Hypothesis RNG : forall i, (i < n)%nat -> (sigma i < n)%nat.
Lemma sigma_perm : Permutation (map sigma (seq 0 n)) (seq 0 n).
Proof.
  apply NoDup_Permutation_bis.
  - assert (H : forall l, NoDup l -> (forall i, In i l -> (i < n)%nat) -> NoDup (map sigma l)).
    { induction l as [|a l IH]; intros N K; [constructor|]. inv N. cbn [map]. constructor; [|apply IH; auto; intros; apply K; simpl; auto].
      intros X. apply in_map_iff in X as (b & E & Hb). apply INJ in E; [congruence| |]; apply K; simpl; auto. }
    apply H; [apply seq_NoDup|]. intros i Hi. apply in_seq in Hi. lia.
  - rewrite map_length, !seq_length. lia.
  - intros x Hx. apply in_map_iff in Hx as (i & <- & Hi). apply in_seq in Hi. apply in_seq. specialize (RNG i). lia.
Qed.
Lemma rsum_sigma (g : nat -> R) : rsum (map g (seq 0 n)) = rsum (map (fun i => g (sigma i)) (seq 0 n)).
Proof. rewrite <- (map_map sigma g). apply rsum_perm, Permutation_map, Permutation_sym, sigma_perm. Qed.
Lemma sigma_onto j : (j < n)%nat -> exists i, (i < n)%nat /\ sigma i = j.
Proof.
  intros H. assert (X : In j (map sigma (seq 0 n))) by (eapply Permutation_in; [apply Permutation_sym, sigma_perm|apply in_seq; lia]).
  apply in_map_iff in X as (i & E & Hi). apply in_seq in Hi. exists i. split; [lia|exact E].
Qed.
End Renumber.

Section Twin.
Variables f L : vecR -> vecR.
Hypothesis RG : rigid f L.
Variable sigma : nat -> nat.

Lemma twin_range ps qs : twin f L sigma ps qs -> forall i, (i < List.length ps)%nat -> (sigma i < List.length ps)%nat.
Proof.
  intros (E & _ & T) i H. destruct (nth_error ps i) as [p|] eqn:P; [|apply nth_error_None in P; lia]. destruct (T i p P) as (q & Q & _).
  rewrite <- E. apply nth_error_Some. congruence.
Qed.
Lemma twin_at ps qs i p : twin f L sigma ps qs -> nth_error ps i = Some p -> exists q, nth_error qs (sigma i) = Some q /\
    p_type q = p_type p /\ p_dens q = p_dens p /\ p_pos q = f (p_pos p) /\ p_vel q = L (p_vel p).
Proof. intros (_ & _ & T). apply T. Qed.
Lemma twin_back ps qs j q : twin f L sigma ps qs -> nth_error qs j = Some q -> exists i p, sigma i = j /\ nth_error ps i = Some p /\
    p_type q = p_type p /\ p_dens q = p_dens p /\ p_pos q = f (p_pos p) /\ p_vel q = L (p_vel p).
Proof.
  intros T Q. assert (J : (j < List.length ps)%nat) by (rewrite <- (proj1 T); apply nth_error_Some; congruence).
  destruct (sigma_onto sigma _ (proj1 (proj2 T)) (twin_range _ _ T) j J) as (i & Hi & <-).
  destruct (nth_error ps i) as [p|] eqn:P; [|apply nth_error_None in P; lia]. exists i, p. split; [reflexivity|]. split; [exact P|].
  destruct (twin_at _ _ _ _ T P) as (q' & Q' & K). rewrite Q in Q'. inv Q'. exact K.
Qed.
Lemma twin_inj ps qs i j p q : twin f L sigma ps qs -> nth_error ps i = Some p -> nth_error ps j = Some q -> sigma i = sigma j -> i = j.
Proof. intros (_ & I & _) P Q. apply I; apply nth_error_Some; congruence. Qed.

Lemma sum_twin ps qs i p (g h : nat -> partR -> R) : twin f L sigma ps qs -> nth_error ps i = Some p ->
  (forall j a b, nth_error ps j = Some a -> nth_error qs (sigma j) = Some b -> j <> i -> p_type a <> Ghost -> g (sigma j) b = h j a) ->
  sum_others qs (sigma i) g = sum_others ps i h.
Proof.
  intros T P H. unfold sum_others. rewrite (proj1 T). rewrite (rsum_sigma sigma (List.length ps) (proj1 (proj2 T)) (twin_range _ _ T)).
  apply rsum_ext. intros j Hj. apply in_seq in Hj. destruct (nth_error ps j) as [a|] eqn:A; [|apply nth_error_None in A; lia].
  destruct (twin_at _ _ _ _ T A) as (b & B & Tb & _). rewrite B, Tb. destruct (Nat.eqb_spec j i) as [->|N]; [rewrite Nat.eqb_refl; reflexivity|].
  destruct (Nat.eqb_spec (sigma j) (sigma i)) as [E|_]; [exfalso; apply N; eapply twin_inj; eauto|]. cbn [orb].
  destruct (Z.eqb_spec (p_type a) Ghost); [reflexivity|]. now apply H.
Qed.
Lemma L_vsum (F : nat -> vecR) l : L (@mkV Rnum (rsum (map (fun j => vx (F j)) l)) (rsum (map (fun j => vy (F j)) l)) (rsum (map (fun j => vz (F j)) l))) =
  @mkV Rnum (rsum (map (fun j => vx (L (F j))) l)) (rsum (map (fun j => vy (L (F j))) l)) (rsum (map (fun j => vz (L (F j))) l)).
Proof.
  destruct RG as (_ & LA & LK & _). induction l as [|j l IH]; cbn [map rsum fold_right].
  - assert (E := LK 0 zeroR). unfold scaleR, zeroR in E. cbn [vx vy vz] in E. rewrite !Rmult_0_l in E. exact E.
  - fold (rsum (map (fun j => vx (F j)) l)) (rsum (map (fun j => vy (F j)) l)) (rsum (map (fun j => vz (F j)) l)).
    match goal with |- L ?v = _ => replace v with (addR (F j) (@mkV Rnum (rsum (map (fun j => vx (F j)) l)) (rsum (map (fun j => vy (F j)) l)) (rsum (map (fun j => vz (F j)) l)))) by reflexivity end.
    rewrite LA, IH. reflexivity.
Qed.
Lemma L_zero : L zeroR = zeroR.
Proof. destruct RG as (_ & _ & LK & _). assert (E := LK 0 zeroR). unfold scaleR, zeroR in *. cbn [vx vy vz] in E. rewrite !Rmult_0_l in E. exact E. Qed.
Lemma L_sumv ps i F : L (sumv ps i F) = sumv ps i (fun j q => L (F j q)).
Proof.
  unfold sumv, sum_others.
  set (G := fun j => match nth_error ps j with Some q => if Nat.eqb j i || (p_type q =? Ghost)%Z then zeroR else F j q | None => zeroR end).
  assert (E : forall c : vecR -> R, c zeroR = 0 -> rsum (map (fun j => match nth_error ps j with Some q => if Nat.eqb j i || (p_type q =? Ghost)%Z then 0 else c (F j q) | None => 0 end) (seq 0 (List.length ps))) =
    rsum (map (fun j => c (G j)) (seq 0 (List.length ps)))).
  { intros c Hc. apply rsum_ext. intros j _. unfold G. destruct (nth_error ps j); auto. destruct (_ || _); auto. }
  rewrite (E vx), (E vy), (E vz) by reflexivity. rewrite L_vsum.
  assert (E' : forall c : vecR -> R, c zeroR = 0 -> rsum (map (fun j => match nth_error ps j with Some q => if Nat.eqb j i || (p_type q =? Ghost)%Z then 0 else c (L (F j q)) | None => 0 end) (seq 0 (List.length ps))) =
    rsum (map (fun j => c (L (G j))) (seq 0 (List.length ps)))).
  { intros c Hc. apply rsum_ext. intros j _. unfold G. destruct (nth_error ps j); [|rewrite L_zero; auto]. destruct (_ || _); [rewrite L_zero|]; auto. }
  rewrite (E' vx), (E' vy), (E' vz) by reflexivity. reflexivity.
Qed.
Lemma sumv_twin ps qs i p (g h : nat -> partR -> vecR) : twin f L sigma ps qs -> nth_error ps i = Some p ->
  (forall j a b, nth_error ps j = Some a -> nth_error qs (sigma j) = Some b -> j <> i -> p_type a <> Ghost -> g (sigma j) b = L (h j a)) ->
  sumv qs (sigma i) g = L (sumv ps i h).
Proof.
  intros T P H. rewrite L_sumv. unfold sumv. f_equal; apply (sum_twin ps qs i p); auto; intros j a b A B N G; now rewrite (H j a b A B N G).
Qed.

(** ** Geometry *)
Lemma diff_f x y : diffR (f x) (f y) = L (diffR x y). Proof. apply RG. Qed.
Lemma euclid_dot x y : euclid x y = sqrt (dotR (diffR x y) (diffR x y)).
Proof. unfold euclid, dotR, diffR. cbn [vx vy vz]. f_equal. ring. Qed.
Lemma euclid_f x y : euclid (f x) (f y) = euclid x y.
Proof. rewrite !euclid_dot, diff_f. f_equal. apply RG. Qed.
Lemma L_diff a b : L (diffR a b) = diffR (L a) (L b).
Proof.
  destruct RG as (_ & LA & LK & _). replace (diffR a b) with (addR a (scaleR (-1) b)) by (apply vec_ext; simpl; ring). rewrite LA, LK. apply vec_ext; simpl; ring.
Qed.
Lemma L_along a k v : L (along a k v) = along (L a) k (L v).
Proof. destruct RG as (_ & LA & LK & _). replace (along a k v) with (addR a (scaleR k v)) by reflexivity. rewrite LA, LK. reflexivity. Qed.
Lemma f_along x k v : f (along x k v) = along (f x) k (L v).
Proof.
  destruct RG as (_ & _ & LK & _). assert (E := diff_f (along x k v) x). replace (diffR (along x k v) x) with (scaleR k v) in E by (apply vec_ext; simpl; ring).
  rewrite LK in E. unfold along. apply vec_ext; simpl; [apply (f_equal vx) in E|apply (f_equal vy) in E|apply (f_equal vz) in E]; simpl in E; set (fa := f _) in *; set (fx := f x) in *; set (lv := L v) in *; destruct fa as [a1 a2 a3], fx as [b1 b2 b3], lv as [c1 c2 c3]; cbn [vx vy vz] in *; change (@num Rnum) with R in *; lra.
Qed.
Lemma f_add x v : f (addR x v) = addR (f x) (L v).
Proof. replace (addR x v) with (along x 1 v) by (apply vec_ext; simpl; ring). rewrite f_along. apply vec_ext; simpl; ring. Qed.
Lemma euclid_0 x y : euclid x y = 0 -> x = y.
Proof.
  unfold euclid. intros H. assert (A : forall a b : R, 0 <= (a - b) ^ 2) by (intros; apply pow2_ge_0). destruct x as [x1 x2 x3], y as [y1 y2 y3]. cbn [vx vy vz] in *. change (@num Rnum) with R in *.
  pose proof (A x1 y1). pose proof (A x2 y2). pose proof (A x3 y3). apply sqrt_eq_0 in H; [|lra].
  f_equal; apply Rminus_diag_uniq, Rsqr_0_uniq; unfold Rsqr; simpl in *; lra.
Qed.
Lemma euclid_same x : euclid x x = 0.
Proof. unfold euclid. replace (_ + _ + _) with 0 by ring. apply sqrt_0. Qed.
Lemma euclid_pos x y : x <> y -> 0 < euclid x y.
Proof. intros H. assert (P : 0 <= euclid x y) by apply sqrt_pos. destruct (Req_dec (euclid x y) 0) as [E|]; [exfalso; apply H, euclid_0, E|lra]. Qed.
Lemma f_inj x y : f x = f y -> x = y.
Proof. intros E. apply euclid_0. rewrite <- euclid_f, E. apply euclid_same. Qed.
Lemma unit_f x y : unitR (f x) (f y) = L (unitR x y).
Proof. unfold unitR. rewrite L_along, L_zero, euclid_f, diff_f. reflexivity. Qed.

(** ** Stages *)
Lemma apart_twin ps qs : twin f L sigma ps qs -> apart ps -> apart qs.
Proof.
  intros T A i j p q P Q N Gp Gq E. destruct (twin_back _ _ _ _ T P) as (i' & p' & <- & P' & Tp & _ & Xp & _). destruct (twin_back _ _ _ _ T Q) as (j' & q' & <- & Q' & Tq & _ & Xq & _).
  rewrite Xp, Xq in E. apply f_inj in E. refine (A i' j' p' q' P' Q' _ _ _ E); congruence.
Qed.
Definition kept (ps ps' : list partR) : Prop := map p_type ps' = map p_type ps.
Definition agree_on (d1 d2 : domR) (ps a qs b : list partR) : Prop :=
  (forall x, in_box d1 x <-> in_box d2 (f x)) \/ ((forall x, in_box d1 x -> in_box d2 (f x)) /\ kept ps a) \/ (kept ps a /\ kept qs b).
Lemma map_nth_type (ps ps' : list partR) i p p' : kept ps ps' -> nth_error ps i = Some p -> nth_error ps' i = Some p' -> p_type p' = p_type p.
Proof.
  intros K P P'. apply (map_nth_error p_type) in P. apply (map_nth_error p_type) in P'. rewrite K in P'. congruence.
Qed.
Lemma swept_twin d1 d2 ps a qs b : twin f L sigma ps qs -> swept d1 ps a -> swept d2 qs b -> agree_on d1 d2 ps a qs b -> twin f L sigma a b.
Proof.
  intros T S1 S2 AG. assert (L1 := S1). unfold swept in L1. apply Forall2_length in L1. assert (L2 := S2). unfold swept in L2. apply Forall2_length in L2. unfold twin. split; [rewrite <- L1, <- L2; exact (proj1 T)|]. split; [rewrite <- L1; exact (proj1 (proj2 T))|].
  intros i p' P'. destruct (Forall2_nth_r _ _ _ _ _ S1 P') as (p & P & (t & l & E) & AP & NP). destruct (twin_at _ _ _ _ T P) as (q & Q & Tq & Dq & Xq & Vq).
  destruct (Forall2_nth _ _ _ _ _ S2 Q) as (q' & Q' & (t' & l' & E') & AQ & NQ). exists q'. split; [exact Q'|].
  split; [|rewrite E, E'; cbn; auto].
  destruct AG as [BX|[(BX & K1)|(K1 & K2)]].
  - assert (AC : active d1 p <-> active d2 q) by (unfold active; rewrite Tq, Xq, BX; tauto).
    assert (DD : active d1 p \/ ~ active d1 p).
    { unfold active, in_box. destruct (Z.eq_dec (p_type p) Ghost); [right; tauto|].
      destruct (Rle_dec (xMin d1) (vx (p_pos p))); [|right; tauto]. destruct (Rle_dec (vx (p_pos p)) (xMax d1)); [|right; tauto].
      destruct (Rle_dec (yMin d1) (vy (p_pos p))); [|right; tauto]. destruct (Rle_dec (vy (p_pos p)) (yMax d1)); [|right; tauto].
      destruct (Rle_dec (zMin d1) (vz (p_pos p))); [|right; tauto]. destruct (Rle_dec (vz (p_pos p)) (zMax d1)); [|right; tauto]. left; tauto. }
    destruct DD as [D|D].
    + rewrite (AP D), (AQ (proj1 AC D)). exact Tq.
    + rewrite (NP D), (NQ (fun X => D (proj2 AC X))). reflexivity.
  - assert (KP := map_nth_type _ _ _ _ _ K1 P P'). rewrite KP. destruct (Z.eq_dec (p_type p) Ghost) as [G|G].
    + rewrite G. apply NQ. intros (Y & _). congruence.
    + rewrite <- Tq. apply AQ. split; [congruence|]. rewrite Xq. apply BX. unfold in_box.
      destruct (Rle_dec (xMin d1) (vx (p_pos p))); [|exfalso; apply G; rewrite <- KP; apply NP; unfold active, in_box; tauto]. destruct (Rle_dec (vx (p_pos p)) (xMax d1)); [|exfalso; apply G; rewrite <- KP; apply NP; unfold active, in_box; tauto].
      destruct (Rle_dec (yMin d1) (vy (p_pos p))); [|exfalso; apply G; rewrite <- KP; apply NP; unfold active, in_box; tauto]. destruct (Rle_dec (vy (p_pos p)) (yMax d1)); [|exfalso; apply G; rewrite <- KP; apply NP; unfold active, in_box; tauto].
      destruct (Rle_dec (zMin d1) (vz (p_pos p))); [|exfalso; apply G; rewrite <- KP; apply NP; unfold active, in_box; tauto]. destruct (Rle_dec (vz (p_pos p)) (zMax d1)); [|exfalso; apply G; rewrite <- KP; apply NP; unfold active, in_box; tauto]. tauto.
  - rewrite (map_nth_type _ _ _ _ _ K1 P P'), (map_nth_type _ _ _ _ _ K2 Q Q'). exact Tq.
Qed.
Lemma swept_apart d ps a : swept d ps a -> apart ps -> apart a.
Proof.
  intros S A i j p q P Q N Gp Gq. destruct (Forall2_nth_r _ _ _ _ _ S P) as (p0 & P0 & (t & l & E) & _ & NP). destruct (Forall2_nth_r _ _ _ _ _ S Q) as (q0 & Q0 & (t' & l' & E') & _ & NQ).
  assert (X : forall r r' : partR, (p_type r = Ghost -> p_type r' = Ghost) -> p_type r' <> Ghost -> p_type r <> Ghost) by (intros; tauto).
  rewrite E, E'. cbn. apply (A i j p0 q0 P0 Q0 N).
  - intros G. apply Gp, NP. intros (Y & _). contradiction.
  - intros G. apply Gq, NQ. intros (Y & _). contradiction.
Qed.
Lemma predicted_twin s s' g n0 la a b a' b' : twin f L sigma a a' -> predicted s g n0 la a b -> predicted s' (L g) n0 la a' b' ->
  s_dt s' = s_dt s -> s_nu s' = s_nu s -> s_dim s' = s_dim s -> s_reL s' = s_reL s -> twin f L sigma b b'.
Proof.
  intros T (L1 & P1) (L2 & P2) E1 E2 E3 E4. split; [rewrite L1, L2; exact (proj1 T)|]. split; [rewrite L1; exact (proj1 (proj2 T))|]. intros i p' P'.
  assert (exists p, nth_error a i = Some p) as (p & P). { destruct (nth_error a i) eqn:X; [eauto|]. apply nth_error_None in X. assert (nth_error b i <> None) as Y by congruence. apply nth_error_Some in Y. lia. }
  destruct (P1 i p P) as (p1 & Q1 & Tp & Dp & NF & FF). rewrite P' in Q1. inv Q1. destruct (twin_at _ _ _ _ T P) as (q & Q & Tq & Dq & Xq & Vq).
  destruct (P2 _ q Q) as (q1 & Q1 & Tq1 & Dq1 & NF' & FF'). exists q1. split; [exact Q1|]. split; [congruence|]. split; [congruence|].
  destruct RG as (_ & LA & LK & _).
  destruct (Z.eq_dec (p_type p) Fluid) as [F|F].
  - destruct (FF F) as (V & X). destruct (FF' ltac:(congruence)) as (V' & X').
    assert (SH : shear (s_reL s') a' (sigma i) q = L (shear (s_reL s) a i p)).
    { unfold shear. rewrite E4. apply (sumv_twin a a' i p); auto. intros j u v U W N G. destruct (twin_at _ _ _ _ T U) as (w & W' & _ & _ & Xw & Vw). rewrite W in W'. inv W'.
      rewrite Xw, Vw, Xq, Vq, euclid_f, LK, L_diff. reflexivity. }
    assert (VV : p_vel q1 = L (p_vel p1)). { rewrite V, V', SH, E1, E2, E3, Vq. rewrite LA, LK, LA, LK. reflexivity. }
    split; [|exact VV]. rewrite X, X', VV, E1, Xq, f_add, LK. reflexivity.
  - destruct (NF F) as (V & X). destruct (NF' ltac:(congruence)) as (V' & X'). rewrite X, X', V, V'. auto.
Qed.
End Twin.
