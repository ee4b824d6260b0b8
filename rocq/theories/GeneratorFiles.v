(** * The generated files and the files in /repo/input *)
From Coq Require Import Reals Lra.
From Flocq Require Import Core.Core IEEE754.BinarySingleNaN.
From Verif Require Export Shipped GeneratorF GeneratorR FloatFacts.
From Verif Require Import Files.
Open Scope Z_scope.

Definition file (l : list string) : list ascii := lines_text (map lit l).
Fixpoint lines_eqb (a b : list (list ascii)) : bool :=
  match a, b with
  | [], [] => true
  | x :: a', y :: b' => text_eqb x y && lines_eqb a' b'
  | _, _ => false
  end.
Lemma lines_eqb_eq a b : lines_eqb a b = true -> a = b.
Proof.
  revert b. induction a as [|x a IH]; intros [|y b]; cbn; try discriminate; [reflexivity|].
  intros H. apply andb_true_iff in H as [H1 H2]. f_equal; [|auto]. unfold text_eqb in H1. destruct (list_eq_dec ascii_dec x y); [auto|discriminate].
Qed.

(** ** Text of the generated particles *)
Section Rows.
Variable pos : Z -> Z -> @vec F64.
Variable at_ : Z -> f64.
Hypothesis pos_at : forall i j, pos i j = mkV (at_ i : @num F64) (at_ j : @num F64) (@nofZ F64 0).
Variables (base : Z) (texts : list (list ascii)).
Hypothesis texts_ok : texts = map (fun k => show (at_ (base + Z.of_nat k))) (seq 0 (List.length texts)).
Definition text_at (i : Z) : list ascii := nth (Z.to_nat (i - base)) texts [].
Lemma text_at_ok i : base <= i < base + Z.of_nat (List.length texts) -> show (at_ i) = text_at i.
Proof.
  intros H. unfold text_at. rewrite texts_ok at 1. rewrite (nth_indep _ [] (show (at_ (base + Z.of_nat 0)))) by (rewrite map_length, seq_length; lia).
  rewrite (map_nth (fun k => show (at_ (base + Z.of_nat k))) (seq 0 (List.length texts)) 0%nat). rewrite seq_nth by lia. do 2 f_equal. lia.
Qed.
Definition row_text (s : site) : list ascii :=
  let '(t, i, j) := s in showZ t ++ sp :: (text_at i ++ sp :: text_at j ++ sp :: lit "0") ++ sp :: lit "0 0 0".
Definition in_table (s : site) : bool :=
  let '(t, i, j) := s in range base (base + Z.of_nat (List.length texts) - 1) i && range base (base + Z.of_nat (List.length texts) - 1) j.
Lemma rows_ok k l : forallb in_table l = true -> map prof_row (built pos k l) = map row_text l.
Proof.
  revert k. induction l as [|[[t i] j] l IH]; intros k; [reflexivity|]. cbn [forallb]. intros H. apply andb_true_iff in H as [H1 H2].
  cbn [in_table] in H1. apply andb_true_iff in H1 as [Hi Hj]. apply range_iff in Hi, Hj.
  cbn [built map]. f_equal; [|auto]. unfold prof_row, row_text. cbn [made newParticle p_type p_pos p_vel]. rewrite pos_at. unfold show3. cbn [vx vy vz].
  rewrite !text_at_ok by lia. reflexivity.
Qed.
Lemma prof_text t l : forallb in_table l = true ->
  toProf t (built pos 0 l) = lines_text (show t :: showZ (Z.of_nat (List.length l)) :: map row_text l).
Proof. intros H. unfold toProf. now rewrite rows_ok, built_length by exact H. Qed.
End Rows.

Definition dam_atF (i : Z) : f64 := @nmul F64 (@nofZ F64 i) dam_l0.
Definition dam_texts : list (list ascii) := Eval vm_compute in map (fun k => show (dam_atF (-4 + Z.of_nat k))) (seq 0 49).
Lemma dam_texts_ok : dam_texts = map (fun k => show (dam_atF (-4 + Z.of_nat k))) (seq 0 (List.length dam_texts)).
Proof. apply lines_eqb_eq. vm_cast_no_check (eq_refl true). Qed.
Lemma dam_file : toProf (@nofZ F64 0) (built dam_pos 0 dam_sites) = file dambreak_prof.
Proof.
  rewrite (prof_text dam_pos dam_atF (fun i j => eq_refl) (-4) dam_texts dam_texts_ok) by (vm_cast_no_check (eq_refl true)).
  apply (f_equal lines_text). apply lines_eqb_eq. vm_cast_no_check (eq_refl true).
Qed.
Definition hyd_texts : list (list ascii) := Eval vm_compute in map (fun k => show (@hyd_at F64 (-19 + Z.of_nat k))) (seq 0 69).
Lemma hyd_texts_ok : hyd_texts = map (fun k => show (@hyd_at F64 (-19 + Z.of_nat k))) (seq 0 (List.length hyd_texts)).
Proof. apply lines_eqb_eq. vm_cast_no_check (eq_refl true). Qed.
Lemma hyd_file : toProf (@nofZ F64 0) (built hyd_pos 0 hyd_sites) = file hydrostatic_prof.
Proof.
  rewrite (prof_text hyd_pos (@hyd_at F64) (fun i j => eq_refl) (-19) hyd_texts hyd_texts_ok) by (vm_cast_no_check (eq_refl true)).
  apply (f_equal lines_text). apply lines_eqb_eq. vm_cast_no_check (eq_refl true).
Qed.

(** ** Distance from the exact places *)
Definition near (x : f64) (n d : Z) : bool :=
  match x with
  | B754_zero _ => n =? 0
  | B754_finite s m e _ => (e <=? 0) && (Z.abs (cond_Zopp s (Zpos m) * d - n * 2 ^ (- e)) * 10 ^ 15 <=? d * 2 ^ (- e))
  | _ => false
  end.
Lemma near_ok x n d : 0 < d -> near x n d = true -> off x (IZR n / IZR d).
Proof.
  intros D. unfold near. destruct x as [s|s| |s m e B]; try discriminate.
  - intros H. apply Z.eqb_eq in H. subst n. split; [reflexivity|]. cbn [B2R]. unfold Rdiv. rewrite Rmult_0_l, Rminus_0_r, Rabs_R0. left. apply Rinv_0_lt_compat, pow_lt. lra.
  - intros H. apply andb_true_iff in H as [E H]. apply Z.leb_le in E, H. split; [reflexivity|]. cbn [B2R]. unfold F2R. cbn [Fnum Fexp].
    set (M := cond_Zopp s (Zpos m)) in *.
    assert (P : (0 < 2 ^ (- e))%Z) by (apply Z.pow_pos_nonneg; lia).
    assert (Eb : bpow radix2 e = (/ IZR (2 ^ (- e)))%R).
    { change 2 with (radix_val radix2). rewrite IZR_Zpower by lia. rewrite bpow_opp. now rewrite Rinv_inv. }
    rewrite Eb. set (q := 2 ^ (- e)) in *. apply IZR_lt in D, P. apply IZR_le in H. rewrite !mult_IZR, abs_IZR, minus_IZR, !mult_IZR in H.
    change (10 ^ 15)%Z with (10 ^ Z.of_nat 15)%Z in H. rewrite <- (pow_IZR 10 15) in H.
    replace (IZR M * / IZR q - IZR n / IZR d)%R with ((IZR M * IZR d - IZR n * IZR q) / (IZR q * IZR d))%R by (field; lra).
    unfold Rdiv. rewrite Rabs_mult, (Rabs_pos_eq (/ (IZR q * IZR d))) by (left; apply Rinv_0_lt_compat, Rmult_lt_0_compat; lra).
    apply (Rmult_le_reg_r (IZR q * IZR d)); [apply Rmult_lt_0_compat; lra|]. rewrite Rmult_assoc, Rinv_l, Rmult_1_r by (apply Rgt_not_eq; apply Rmult_lt_0_compat; lra).
    apply (Rmult_le_reg_r (10 ^ 15)); [apply pow_lt; lra|].
    replace (/ 10 ^ 15 * (IZR q * IZR d) * 10 ^ 15)%R with (IZR d * IZR q)%R by (field; apply pow_nonzero; lra). exact H.
Qed.

Definition f64_eqb (x y : f64) : bool :=
  match x, y with
  | B754_zero s, B754_zero s' => Bool.eqb s s'
  | B754_infinity s, B754_infinity s' => Bool.eqb s s'
  | B754_nan, B754_nan => true
  | B754_finite s m e _, B754_finite s' m' e' _ => Bool.eqb s s' && Pos.eqb m m' && (e =? e')
  | _, _ => false
  end.
Lemma f64_eqb_eq x y : f64_eqb x y = true -> x = y.
Proof.
  intros H. apply B2SF_inj. destruct x as [s|s| |s m e B], y as [s'|s'| |s' m' e' B']; cbn in H |- *; try discriminate; try reflexivity;
    try (apply eqb_prop in H; now rewrite H).
  apply andb_true_iff in H as [H H3]. apply andb_true_iff in H as [H1 H2]. apply eqb_prop in H1. apply Pos.eqb_eq in H2. apply Z.eqb_eq in H3. now subst.
Qed.
Definition vec_eqb (a b : @vec F64) : bool := f64_eqb (vx a) (vx b) && f64_eqb (vy a) (vy b) && f64_eqb (vz a) (vz b).
Lemma vec_eqb_eq a b : vec_eqb a b = true -> a = b.
Proof.
  destruct a as [a1 a2 a3], b as [b1 b2 b3]. unfold vec_eqb. cbn [vx vy vz]. intros H. apply andb_true_iff in H as [H H3]. apply andb_true_iff in H as [H1 H2].
  apply f64_eqb_eq in H1, H2, H3. now subst.
Qed.
Definition at_rest_b (p : @Types.particle F64) : bool :=
  let zero := @nofZ F64 0 in
  (p_fluidType p =? 0) && vec_eqb (p_vel p) vzero && vec_eqb (p_acc p) vzero && f64_eqb (p_press p) zero && f64_eqb (p_nd p) zero &&
  f64_eqb (p_dens p) (@nofZ F64 1000) && fs_eqb (p_bc p) Ignored && f64_eqb (p_src p) zero && f64_eqb (p_minp p) zero &&
  match p_nbrs p with [] => true | _ => false end.
Lemma at_rest_b_ok p : at_rest_b p = true -> at_rest p.
Proof.
  destruct p as [id t ft x v a pr nd d bc sr mp nb]. unfold at_rest_b. cbn. intros H.
  repeat match goal with H : _ && _ = true |- _ => apply andb_true_iff in H as [H ?] end.
  repeat match goal with
  | H : f64_eqb _ _ = true |- _ => apply f64_eqb_eq in H
  | H : vec_eqb _ _ = true |- _ => apply vec_eqb_eq in H
  end. destruct nb; [|discriminate]. destruct bc; try discriminate. apply Z.eqb_eq in H. unfold at_rest, newParticle. cbn. now subst.
Qed.

Section Close.
Variable pos : Z -> Z -> @vec Rnum.
Variables num_ : Z -> Z.
Variable den : Z.
Hypothesis den_pos : 0 < den.
Hypothesis pos_frac : forall i j, pos i j = mkV (IZR (num_ i) / IZR den : @num Rnum)%R (IZR (num_ j) / IZR den : @num Rnum)%R (0%R : @num Rnum).
Variable x0 x1 y0 y1 : f64.
Definition check1 (k : Z) (s : site) (q : @Types.particle F64) : bool :=
  let '(t, i, j) := s in
  (p_id q =? k) && (p_type q =? t) && at_rest_b q && near (vx (p_pos q)) (num_ i) den && near (vy (p_pos q)) (num_ j) den && near (vz (p_pos q)) 0 den.
Definition domain1 (q : @Types.particle F64) : bool :=
  @nle F64 x0 (vx (p_pos q)) && @nle F64 (vx (p_pos q)) x1 && @nle F64 y0 (vy (p_pos q)) && @nle F64 (vy (p_pos q)) y1 &&
  @nle F64 (@nofZ F64 0) (vz (p_pos q)) && @nle F64 (vz (p_pos q)) (@nofZ F64 0).
Fixpoint checks (k : Z) (l : list site) (qs : list (@Types.particle F64)) : bool :=
  match l, qs with
  | [], [] => true
  | s :: l', q :: qs' => check1 k s q && checks (k + 1) l' qs'
  | _, _ => false
  end.
Lemma check1_ok k s q : check1 k s q = true -> close (made pos k s) q.
Proof.
  destruct s as [[t i] j]. cbn [check1]. intros H. repeat match goal with H : _ && _ = true |- _ => apply andb_true_iff in H as [H ?] end.
  unfold close. cbn [made newParticle p_id p_type p_pos]. rewrite pos_frac. cbn [vx vy vz].
  split; [now apply Z.eqb_eq|]. split; [now apply Z.eqb_eq|]. split; [now apply at_rest_b_ok|].
  split; [now apply near_ok|]. split; [now apply near_ok|]. replace 0%R with (IZR 0 / IZR den)%R by (unfold Rdiv; apply Rmult_0_l). now apply near_ok.
Qed.
Lemma checks_ok k l qs : checks (Z.of_nat k) l qs = true -> Forall2 close (built pos k l) qs.
Proof.
  revert k qs. induction l as [|s l IH]; intros k [|q qs]; cbn [checks built]; try discriminate; [constructor|].
  intros H. apply andb_true_iff in H as [H1 H2]. constructor; [now apply check1_ok|]. apply IH. now rewrite Nat2Z.inj_succ, <- Z.add_1_r.
Qed.
Lemma domain1_ok qs : forallb domain1 qs = true -> Forall (in_domain x0 x1 y0 y1) qs.
Proof.
  intros H. apply Forall_forall. intros q Hq. rewrite forallb_forall in H. specialize (H q Hq). unfold domain1 in H.
  repeat match goal with H : _ && _ = true |- _ => apply andb_true_iff in H as [H ?] end. repeat split; assumption.
Qed.
Definition loaded_b (l : list site) (o : outcome (f64 * list (@Types.particle F64))) : bool :=
  match o with Ok (t, qs) => f64_eqb t (@nofZ F64 0) && checks 0 l qs && forallb domain1 qs | _ => false end.
Lemma loaded_ok l o : loaded_b l o = true -> exists qs, o = Ok (@nofZ F64 0, qs) /\ Forall2 close (built pos 0 l) qs /\ Forall (in_domain x0 x1 y0 y1) qs.
Proof.
  unfold loaded_b. destruct o as [[t qs]|u| |c| |]; try discriminate. intros H. apply andb_true_iff in H as [H H3]. apply andb_true_iff in H as [H1 H2].
  apply f64_eqb_eq in H1. subst t. exists qs. split; [reflexivity|]. split; [now apply (checks_ok 0)|now apply domain1_ok].
Qed.
End Close.
Lemma dam_frac i j : @dam_pos Rnum i j = mkV (IZR (25 * i) / IZR 1000 : @num Rnum)%R (IZR (25 * j) / IZR 1000 : @num Rnum)%R (0%R : @num Rnum).
Proof.
  assert (E : forall k, dam_at k = (IZR (25 * k) / IZR 1000)%R) by (intros k; unfold dam_at; rewrite mult_IZR; lra).
  rewrite <- !E. reflexivity.
Qed.
Lemma hyd_frac i j : @hyd_pos Rnum i j = mkV (IZR (12 * i + 6) / IZR 1000 : @num Rnum)%R (IZR (12 * j + 6) / IZR 1000 : @num Rnum)%R (0%R : @num Rnum).
Proof.
  assert (E : forall k, hyd_mid k = (IZR (12 * k + 6) / IZR 1000)%R) by (intros k; unfold hyd_mid; rewrite plus_IZR, mult_IZR; lra).
  rewrite <- !E. reflexivity.
Qed.
(** dambreak: generated, and loaded from the shipped files *)
Definition dam_loaded : list site -> outcome (f64 * list (@Types.particle F64)) -> bool :=
  loaded_b (fun i => 25 * i) 1000 (literal (-1) 10) (literal 11 10) (literal (-1) 10) (literal 2 1).
Definition hyd_loaded : list site -> outcome (f64 * list (@Types.particle F64)) -> bool :=
  loaded_b (fun i => 12 * i + 6) 1000 (literal (-25) 100) (literal 25 100) (literal (-5) 100) (literal 6 10).
Lemma dam_loaded_ok o : dam_loaded dam_sites o = true -> exists qs, o = Ok (@nofZ F64 0, qs) /\ Forall2 close (built dam_pos 0 dam_sites) qs /\ Forall in_dam_domain qs.
Proof. apply loaded_ok; [lia|exact dam_frac]. Qed.
Lemma hyd_loaded_ok o : hyd_loaded hyd_sites o = true -> exists qs, o = Ok (@nofZ F64 0, qs) /\ Forall2 close (built hyd_pos 0 hyd_sites) qs /\ Forall in_hyd_domain qs.
Proof. apply loaded_ok; [lia|exact hyd_frac]. Qed.
Lemma dam_round : checks (fun i => 25 * i) 1000 0 dam_sites (built dam_pos 0 dam_sites) = true.
Proof. vm_cast_no_check (eq_refl true). Qed.
Lemma hyd_round : checks (fun i => 12 * i + 6) 1000 0 hyd_sites (built hyd_pos 0 hyd_sites) = true.
Proof. vm_cast_no_check (eq_refl true). Qed.
