(** * The generators in binary64 *)
From Verif Require Export GeneratorFacts.
From Verif Require Import FloatFacts.
Open Scope Z_scope.

(** all integers from a on *)
Fixpoint all_from (n : nat) (a : Z) (P : Z -> bool) : bool :=
  match n with O => true | S n' => P a && all_from n' (a + 1) P end.
Lemma all_from_ok n a P i : all_from n a P = true -> a <= i < a + Z.of_nat n -> P i = true.
Proof.
  revert a. induction n as [|n IH]; intros a H Hi; [lia|]. cbn in H. apply andb_true_iff in H as [H1 H2].
  destruct (Z.eq_dec i a) as [->|D]; [exact H1|]. apply (IH (a + 1)); [exact H2|lia].
Qed.
#[local] Notation eqb := Bool.eqb.
Section Tables.
Local Open Scope num_scope.
#[local] Existing Instance F64.
Definition dam_x_b (ix : Z) : bool :=
  eqb (in_range (- #4 * dam_l0, #1 + #4 * dam_l0) dam_eps (#ix * dam_l0)) (range (-4) 44 ix) &&
  eqb (in_range (- #2 * dam_l0, #1 + #2 * dam_l0) dam_eps (#ix * dam_l0)) (range (-2) 42 ix) &&
  eqb (in_range (#0, #1) dam_eps (#ix * dam_l0)) (range 0 40 ix) &&
  eqb (in_range (#0, dec 25 100) dam_eps (#ix * dam_l0)) (range 0 10 ix).
Definition dam_y_b (iy : Z) : bool :=
  eqb (in_range (- #4 * dam_l0, dec 6 10) dam_eps (#iy * dam_l0)) (range (-4) 24 iy) &&
  eqb (in_range (- #2 * dam_l0, dec 6 10) dam_eps (#iy * dam_l0)) (range (-2) 24 iy) &&
  eqb (in_range (dec 6 10 - #2 * dam_l0, dec 6 10) dam_eps (#iy * dam_l0)) (range 22 24 iy) &&
  eqb (in_range (#0, dec 6 10) dam_eps (#iy * dam_l0)) (range 0 24 iy) &&
  eqb (in_range (#0, dec 50 100) dam_eps (#iy * dam_l0)) (range 0 20 iy).
Definition hyd_x_b (ix : Z) : bool :=
  eqb (within (bx_cx hyd_empty) (bx_sx hyd_empty) (hyd_at ix)) (range (-15) 14 ix) &&
  eqb (within (bx_cx hyd_fluid) (bx_sx hyd_fluid) (hyd_at ix)) (range (-15) 14 ix) &&
  eqb (within (bx_cx hyd_wall) (bx_sx hyd_wall) (hyd_at ix)) (range (-17) 16 ix) &&
  eqb (within (bx_cx hyd_dummy) (bx_sx hyd_dummy) (hyd_at ix)) (range (-19) 18 ix).
Definition hyd_y_b (iy : Z) : bool :=
  eqb (within (bx_cy hyd_empty) (bx_sy hyd_empty) (hyd_at iy)) (range 40 49 iy) &&
  eqb (within (bx_cy hyd_fluid) (bx_sy hyd_fluid) (hyd_at iy)) (range 0 39 iy) &&
  eqb (within (bx_cy hyd_wall) (bx_sy hyd_wall) (hyd_at iy)) (range (-2) 49 iy) &&
  eqb (within (bx_cy hyd_dummy) (bx_sy hyd_dummy) (hyd_at iy)) (range (-4) 49 iy).
End Tables.
Ltac ands := repeat match goal with H : _ && _ = true |- _ => apply andb_true_iff in H as [? ?] | H : eqb _ _ = true |- _ => apply eqb_prop in H end.
Lemma dam_x_F ix : -4 <= ix <= 44 -> @dam_x F64 ix.
Proof.
  intros H. assert (E : dam_x_b ix = true).
  { apply (all_from_ok 49 (-4)); [|lia]. vm_cast_no_check (eq_refl true). }
  unfold dam_x_b in E. ands. constructor; assumption.
Qed.
Lemma dam_y_F iy : -4 <= iy <= 28 -> @dam_y F64 iy.
Proof.
  intros H. assert (E : dam_y_b iy = true).
  { apply (all_from_ok 33 (-4)); [|lia]. vm_cast_no_check (eq_refl true). }
  unfold dam_y_b in E. ands. constructor; assumption.
Qed.
Lemma hyd_x_F ix : -19 <= ix <= 18 -> @hyd_x F64 ix.
Proof.
  intros H. assert (E : hyd_x_b ix = true).
  { apply (all_from_ok 38 (-19)); [|lia]. vm_cast_no_check (eq_refl true). }
  unfold hyd_x_b in E. ands. constructor; assumption.
Qed.
Lemma hyd_y_F iy : -4 <= iy <= 49 -> @hyd_y F64 iy.
Proof.
  intros H. assert (E : hyd_y_b iy = true).
  { apply (all_from_ok 54 (-4)); [|lia]. vm_cast_no_check (eq_refl true). }
  unfold hyd_y_b in E. ands. constructor; assumption.
Qed.
Lemma dam_bounds_F : @dam_bounds F64.
Proof. constructor; vm_compute; reflexivity. Qed.
Lemma hyd_bounds_F : @hyd_bounds F64.
Proof. constructor; vm_compute; reflexivity. Qed.

(** the distance function is negative inside only *)
Lemma nonneg_zero (r e : f64) : @nlt F64 r (@nofZ F64 0) = false -> (match e with B754_zero _ | B754_nan => True | _ => False end) ->
  @nlt F64 (@nadd F64 r e) (@nofZ F64 0) = false.
Proof. intros H K. destruct e as [s|s| |s m e B]; destruct K; destruct r as [s'|s'| |s' m' e' B']; try reflexivity; try exact H; cbn; destruct s', s; reflexivity. Qed.
Lemma sqrt_nonneg (x : f64) : @nlt F64 (@nsqrt F64 x) (@nofZ F64 0) = false.
Proof.
  cbn [nlt nsqrt nofZ F64]. pose proof (Bsqrt_correct 53 1024 _ _ mode_NE x) as (H1 & H2 & H3).
  unfold Fcmp. destruct x as [s|s| |s m e B]; try reflexivity; [destruct s; reflexivity|].
  destruct s; [reflexivity|]. specialize (H3 ltac:(destruct (Bsqrt mode_NE (B754_finite false m e B)) eqn:E; try reflexivity; cbn in H2; discriminate)).
  cbn [Bsign] in H3. destruct (Bsqrt mode_NE (B754_finite false m e B)) as [s'|s'| |s' m' e' B']; try reflexivity; cbn in H3; subst s'; reflexivity.
Qed.
Lemma sdf_F : @sdf_separates F64.
Proof.
  intros b rx ry. unfold sdf, within.
  set (qx := @nsub F64 (@nabs F64 (@nsub F64 rx (bx_cx b))) (@ndiv F64 (bx_sx b) (@nofZ F64 2))).
  set (qy := @nsub F64 (@nabs F64 (@nsub F64 ry (bx_cy b))) (@ndiv F64 (bx_sy b) (@nofZ F64 2))).
  clearbody qx qy. cbv zeta. change (@num F64) with f64 in *. unfold nmax at 1 2 3 4.
  destruct (@nlt F64 qx (@nofZ F64 0)) eqn:X; destruct (@nlt F64 qy (@nofZ F64 0)) eqn:Y; cbn [andb].
  - change (@nsqrt F64 (@nadd F64 (@nmul F64 (@nofZ F64 0) (@nofZ F64 0)) (@nmul F64 (@nofZ F64 0) (@nofZ F64 0)))) with (@nofZ F64 0).
    assert (K : forall q : f64, @nlt F64 q (@nofZ F64 0) = true -> @nlt F64 (@nadd F64 (@nofZ F64 0) (@nmin F64 q (@nofZ F64 0))) (@nofZ F64 0) = true).
    { intros q. destruct q as [s|s| |s m e B]; try discriminate; destruct s; try discriminate; reflexivity. }
    unfold nmax. destruct (@nlt F64 qx qy); apply K; assumption.
  - destruct qy as [s|s| |s m e B].
    + apply nonneg_zero; [apply sqrt_nonneg|]. destruct qx as [s'|s'| |s' m' e' B']; try discriminate; destruct s'; try discriminate; destruct s; exact I.
    + destruct s; [discriminate|]. apply nonneg_zero; [apply sqrt_nonneg|]. destruct qx as [s'|s'| |s' m' e' B']; try discriminate; destruct s'; try discriminate; exact I.
    + destruct qx as [s'|s'| |s' m' e' B']; try discriminate; destruct s'; try discriminate; reflexivity.
    + destruct s; [discriminate|]. apply nonneg_zero; [apply sqrt_nonneg|]. destruct qx as [s'|s'| |s' m' e' B']; try discriminate; destruct s'; try discriminate; exact I.
  - apply nonneg_zero; [apply sqrt_nonneg|]. 
    destruct qx as [s|s| |s m e B]; try (destruct s; discriminate); try (destruct s; try discriminate); try exact I;
    destruct qy as [s'|s'| |s' m' e' B']; try discriminate; try (destruct s'; try discriminate); exact I.
  - apply nonneg_zero; [apply sqrt_nonneg|]. unfold nmax.
    destruct qx as [s|s| |s m e B]; try (destruct s; try discriminate); try exact I;
    destruct qy as [s'|s'| |s' m' e' B']; try (destruct s'; try discriminate); try exact I;
    match goal with |- context [if ?c then _ else _] => destruct c end; exact I.
Qed.
Lemma dambreak_F dbg : @dambreak F64 dbg = Ok (built dam_pos 0 dam_sites).
Proof. apply dambreak_sites; [apply dam_bounds_F|intros; apply dam_x_F; lia|intros; apply dam_y_F; lia]. Qed.
Lemma hydrostatic_F dbg : @hydrostatic F64 dbg = Ok (built hyd_pos 0 hyd_sites).
Proof. apply hydrostatic_sites; [apply sdf_F|apply hyd_bounds_F|intros; apply hyd_x_F; lia|intros; apply hyd_y_F; lia]. Qed.
