(** * Only differences of pressures act (C87) *)
From Coq Require Import Reals Lra PeanoNat.
From Flocq Require Import Core.
From Verif Require Import StepFacts RetypeFacts BodyR SpecR SpecGauge.
Open Scope list_scope.
Open Scope R_scope.

Section Hom.
Variables (f : R -> R) (h : partR -> partR).
Hypotheses (HF : forall a b, @nmin Rnum (f a) (f b) = f (@nmin Rnum a b))
  (HT : forall p, p_type (h p) = p_type p) (HI : forall p, p_id (h p) = p_id p) (HN : forall p, p_nbrs (h p) = p_nbrs p)
  (HP : forall p, p_press (h p) = f (p_press p)) (HM : forall p, p_minp (h p) = f (p_minp p)) (HS : forall p x, set_minp (h p) (f x) = h (set_minp p x)).
Lemma god_hom p : ghost_or_dummy (h p) = ghost_or_dummy p.
Proof using HT. unfold ghost_or_dummy, is_type. now rewrite HT. Qed.
Lemma minp_hom re ps : @setMinimumPressure Rnum re (map h ps) = omap (map h) (@setMinimumPressure Rnum re ps).
Proof using All.
  unfold setMinimumPressure. rewrite !map_length. rewrite map_map, (map_ext _ (fun p => h (set_minp p (p_press p)))), <- (map_map (fun p : partR => set_minp p (p_press p)) h) by (intros p; now rewrite HP, HS).
  apply foldM_hom. intros i w. unfold minp1. rewrite vget_map. destruct (vget w (Z.of_nat i)) as [p| | | | |]; cbn [omap bind]; auto. rewrite god_hom, HN. destruct (ghost_or_dummy p); [reflexivity|].
  apply foldM_hom. intros nb u. unfold minp_pair. rewrite !vget_map. destruct (vget u (Z.of_nat i)) as [a| | | | |]; cbn [omap bind]; auto. destruct (vget u (nb_id nb)) as [b| | | | |]; cbn [omap bind]; auto.
  rewrite god_hom, !HI. destruct (ghost_or_dummy b); [reflexivity|]. destruct (p_id a <? p_id b)%Z; [reflexivity|]. destruct (nlt (nb_dist nb) re); [|reflexivity].
  rewrite (vmod_map h u (Z.of_nat i) (fun p => set_minp p (nmin (p_minp p) (p_press b)))) by (intros z; now rewrite HM, HP, HF, HS).
  destruct (vmod u (Z.of_nat i) _) as [v| | | | |]; cbn [omap bind]; auto. apply vmod_map. intros z. now rewrite HM, HP, HF, HS.
Qed.
End Hom.

(** ** a constant *)
Definition lift (c : R) (p : partR) : partR := set_minp (set_press p (p_press p + c)) (p_minp p + c).
Lemma min_lift c a b : @nmin Rnum (a + c) (b + c) = @nmin Rnum a b + c.
Proof. unfold nmin. cbn [nlt Rnum]. destruct (Rlt_bool_spec (b + c) (a + c)), (Rlt_bool_spec b a); try lra; reflexivity. Qed.
Lemma minp_lift c re ps : @setMinimumPressure Rnum re (map (lift c) ps) = omap (map (lift c)) (@setMinimumPressure Rnum re ps).
Proof. apply (minp_hom (fun x => x + c)); try reflexivity. intros a b. apply min_lift. Qed.
Lemma grad_lift c s rv re ps : @calPressureGradient Rnum s rv re (map (lift c) ps) = omap (map (lift c)) (@calPressureGradient Rnum s rv re ps).
Proof.
  unfold calPressureGradient. apply each_map. intros w p. unfold calPressureGradient1. change (is_type (lift c p) Fluid) with (is_type p Fluid). destruct (is_type p Fluid); cbn [negb]; [|reflexivity].
  change (p_nbrs (lift c p)) with (p_nbrs p).
  assert (E : foldM (grad_term s re (map (lift c) w) (lift c p)) (p_nbrs p) vzero = foldM (grad_term s re w p) (p_nbrs p) vzero).
  { apply foldM_same. intros nb acc. unfold grad_term. rewrite vget_map. destruct (vget w (nb_id nb)) as [q| | | | |]; cbn [omap bind]; auto.
    change (ghost_or_dummy (lift c q)) with (ghost_or_dummy q). destruct (ghost_or_dummy q); [reflexivity|]. destruct (nlt (nb_dist nb) re); [|reflexivity].
    destruct (weight (s_asserts s) (nb_dist nb) re); cbn [bind]; auto. change (p_pos (lift c q)) with (p_pos q). change (p_pos (lift c p)) with (p_pos p).
    change (p_press (lift c q)) with (p_press q + c). change (p_minp (lift c p)) with (p_minp p + c). cbn [nsub Rnum]. replace (p_press q + c - (p_minp p + c)) with (p_press q - p_minp p) by ring. reflexivity. }
  rewrite E. clear E. match goal with |- bind ?x ?f = omap ?h (bind ?y ?g) => change (bind x f = omap h (bind x g)); destruct x end; reflexivity.
Qed.
Lemma start_lift c ps qs : Forall2 (raised c) ps qs -> map (fun p : partR => set_minp p (p_press p)) qs = map (lift c) (map (fun p : partR => set_minp p (p_press p)) ps).
Proof. induction 1 as [|p q ps qs H F IH]; [reflexivity|]. cbn [map]. rewrite IH. f_equal. rewrite H. reflexivity. Qed.
Lemma set_start re (ps : list partR) : setMinimumPressure re (map (fun p : partR => set_minp p (p_press p)) ps) = setMinimumPressure re ps.
Proof. unfold setMinimumPressure. rewrite !map_length, map_map. reflexivity. Qed.
Lemma lift_raised c ps : Forall2 (raised c) ps (map (lift c) ps).
Proof. induction ps; cbn [map]; constructor; [reflexivity|assumption]. Qed.
Lemma move_raised c s ps : Forall2 (raised c) (moveParticleUsingPressureGradient s ps) (moveParticleUsingPressureGradient s (map (lift c) ps)).
Proof.
  unfold moveParticleUsingPressureGradient. induction ps as [|p ps IH]; cbn [map]; constructor; [|exact IH]. unfold raised, correct1. change (is_type (lift c p) Fluid) with (is_type p Fluid). destruct (is_type p Fluid); reflexivity.
Qed.
Lemma differences (s : @settings Rnum) rv re c ps qs ps1 ps2 : Forall2 (raised c) ps qs -> setMinimumPressure re ps = Ok ps1 -> calPressureGradient s rv re ps1 = Ok ps2 ->
  exists qs1 qs2, setMinimumPressure re qs = Ok qs1 /\ calPressureGradient s rv re qs1 = Ok qs2 /\ Forall2 (raised c) ps2 qs2 /\
    Forall2 (raised c) (moveParticleUsingPressureGradient s ps2) (moveParticleUsingPressureGradient s qs2).
Proof.
  intros F H1 H2. exists (map (lift c) ps1), (map (lift c) ps2). split; [|split; [|split]].
  - rewrite <- set_start, (start_lift c ps qs F), minp_lift, set_start, H1. reflexivity.
  - now rewrite grad_lift, H2.
  - apply lift_raised.
  - apply move_raised.
Qed.

(** ** a factor *)
Definition amp (k : R) (p : partR) : partR := set_minp (set_acc (set_press p (k * p_press p)) (scaleR k (p_acc p))) (k * p_minp p).
Lemma min_amp k a b : 0 <= k -> @nmin Rnum (k * a) (k * b) = k * @nmin Rnum a b.
Proof.
  intros K. unfold nmin. cbn [nlt Rnum]. destruct (Rlt_bool_spec (k * b) (k * a)) as [X|X], (Rlt_bool_spec b a) as [Y|Y]; try reflexivity.
  - exfalso. assert (k * a <= k * b) by (now apply Rmult_le_compat_l). lra.
  - assert (k * b <= k * a) by (apply Rmult_le_compat_l; lra). lra.
Qed.
Lemma minp_amp k re ps : 0 <= k -> @setMinimumPressure Rnum re (map (amp k) ps) = omap (map (amp k)) (@setMinimumPressure Rnum re ps).
Proof. intros K. apply (minp_hom (fun x => k * x)); try reflexivity. intros a b. now apply min_amp. Qed.
Lemma grad_amp k s rv re ps : @calPressureGradient Rnum s rv re (map (amp k) ps) = omap (map (amp k)) (@calPressureGradient Rnum s rv re ps).
Proof.
  unfold calPressureGradient. apply each_map. intros w p. unfold calPressureGradient1. change (is_type (amp k p) Fluid) with (is_type p Fluid). destruct (is_type p Fluid); cbn [negb]; [|reflexivity].
  change (p_nbrs (amp k p)) with (p_nbrs p).
  assert (E : foldM (grad_term s re (map (amp k) w) (amp k p)) (p_nbrs p) (scaleR k vzero) = omap (scaleR k) (foldM (grad_term s re w p) (p_nbrs p) vzero)).
  { apply foldM_hom. intros nb acc. unfold grad_term. rewrite vget_map. destruct (vget w (nb_id nb)) as [q| | | | |]; cbn [omap bind]; auto.
    change (ghost_or_dummy (amp k q)) with (ghost_or_dummy q). destruct (ghost_or_dummy q); [reflexivity|]. destruct (nlt (nb_dist nb) re); [|reflexivity].
    destruct (weight (s_asserts s) (nb_dist nb) re); cbn [bind]; auto. change (p_pos (amp k q)) with (p_pos q). change (p_pos (amp k p)) with (p_pos p).
    change (p_press (amp k q)) with (k * p_press q). change (p_minp (amp k p)) with (k * p_minp p). match goal with |- Ok ?x = omap _ (Ok ?y) => change (Ok x = Ok (scaleR k y)); assert (Q : x = scaleR k y); [|now rewrite Q] end.
    unfold scaleR, vadd, vmulr. cbn [vx vy vz nadd nmul nsub ndiv Rnum]. unfold Rdiv. apply vec_eq; cbn; ring. }
  assert (Z : scaleR k (@vzero Rnum) = @vzero Rnum) by (unfold scaleR, vzero; cbn [vx vy vz nofZ Rnum]; f_equal; ring). rewrite Z in E. rewrite E. clear E Z.
  match goal with |- bind (omap ?k ?x) ?f = omap ?h (bind ?y ?g) => change (bind (omap k x) f = omap h (bind x g)); destruct x end; cbn [omap bind]; auto. f_equal. unfold amp, set_acc, set_minp, set_press. cbn [p_id p_type p_fluidType p_pos p_vel p_acc p_press p_nd p_dens p_bc p_src p_minp p_nbrs]. f_equal.
  unfold scaleR, vsub, vdivr, vmulr. cbn [vx vy vz nadd nmul nsub ndiv Rnum]. unfold Rdiv. apply vec_eq; cbn; ring.
Qed.
Lemma start_amp k ps qs : Forall2 (amplified k) ps qs -> map (fun p : partR => set_minp p (p_press p)) qs = map (amp k) (map (fun p : partR => set_minp p (p_press p)) ps).
Proof. induction 1 as [|p q ps qs H F IH]; [reflexivity|]. cbn [map]. rewrite IH. f_equal. rewrite H. reflexivity. Qed.
Lemma amp_amplified k ps : Forall2 (amplified k) ps (map (amp k) ps).
Proof. induction ps; cbn [map]; constructor; [reflexivity|assumption]. Qed.
Lemma proportional (s : @settings Rnum) rv re k ps qs ps1 ps2 : 0 <= k -> Forall2 (amplified k) ps qs -> setMinimumPressure re ps = Ok ps1 -> calPressureGradient s rv re ps1 = Ok ps2 ->
  exists qs1 qs2, setMinimumPressure re qs = Ok qs1 /\ calPressureGradient s rv re qs1 = Ok qs2 /\ Forall2 (amplified k) ps2 qs2.
Proof.
  intros K F H1 H2. exists (map (amp k) ps1), (map (amp k) ps2). split; [|split].
  - rewrite <- set_start, (start_amp k ps qs F), minp_amp, set_start, H1 by exact K. reflexivity.
  - now rewrite grad_amp, H2.
  - apply amp_amplified.
Qed.
