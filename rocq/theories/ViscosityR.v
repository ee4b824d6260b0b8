(** * Viscosity dissipates (C74) *)
From Coq Require Import Reals Lra PeanoNat.
From Verif Require Import MotionR.
From Verif Require Export SpecForces.
Open Scope R_scope.
#[local] Remove Hints F64 : typeclass_instances.

(** a bilinear function of a sum *)
Lemma sum_others_dot ps i u (f : nat -> partR -> vecR) : dotR u (sumv ps i f) = sum_others ps i (fun j q => dotR u (f j q)).
Proof.
  unfold dotR, sumv, sum_others. cbn [vx vy vz]. rewrite <- !rsum_mul, <- !rsum_add. apply rsum_ext. intros j _.
  destruct (nth_error ps j) as [q|]; [|ringR]. destruct (_ || _); ringR.
Qed.
Lemma sum_others_add ps i f g : sum_others ps i (fun j q => f j q + g j q) = sum_others ps i f + sum_others ps i g.
Proof. unfold sum_others. rewrite <- rsum_add. apply rsum_ext. intros j _. destruct (nth_error ps j) as [q|]; [|ring]. destruct (_ || _); ring. Qed.
Lemma sum_others_mul ps i k f : sum_others ps i (fun j q => k * f j q) = k * sum_others ps i f.
Proof. unfold sum_others. rewrite <- rsum_mul. apply rsum_ext. intros j _. destruct (nth_error ps j) as [q|]; [|ring]. destruct (_ || _); ring. Qed.
Lemma sum_others_le ps i f g : (forall j q, nth_error ps j = Some q -> j <> i -> p_type q <> Ghost -> f j q <= g j q) -> sum_others ps i f <= sum_others ps i g.
Proof.
  intros H. unfold sum_others. apply rsum_le. intros j _. destruct (nth_error ps j) as [q|] eqn:E; [|lra].
  destruct (Nat.eqb_spec j i), (Z.eqb_spec (p_type q) Ghost); simpl; try lra. now apply H.
Qed.

(** the double sum of an antisymmetric term over the particles that are not Ghost, with the part that is not fluid on
    one side *)
Lemma fluid_part (c : vecR -> R) re ps : apart ps -> (forall v, 0 <= c v) -> (forall p, In p ps -> p_type p <> Fluid -> p_type p <> Ghost -> c (p_vel p) = 0) ->
  rsum (map (fun i => match nth_error ps i with
                      | Some p => if (p_type p =? Fluid)%Z then sum_others ps i (fun _ q => w_spec re (euclid (p_pos p) (p_pos q)) * (c (p_vel q) - c (p_vel p))) else 0
                      | None => 0 end) (seq 0 (List.length ps))) <= 0.
Proof.
  intros A C W. assert (AS := antisym_sum (drag c re ps) (List.length ps) (fun i j => drag_antisym c re ps i j)).
  eapply Rle_trans; [|apply Req_le; exact AS]. apply rsum_le. intros i _. destruct (nth_error ps i) as [p|] eqn:Hp.
  - destruct (Z.eqb_spec (p_type p) Fluid) as [T|T].
    + apply Req_le. unfold sum_others. apply rsum_ext. intros j _. unfold drag. rewrite Hp, T. simpl. destruct (nth_error ps j); auto.
    + assert (Z0 : rsum (map (fun _ : nat => 0) (seq 0 (List.length ps))) = 0) by now apply rsum_zero. rewrite <- Z0 at 1. apply rsum_le. intros j _. unfold drag. rewrite Hp. destruct (nth_error ps j) as [q|] eqn:Hq; [|lra].
      destruct (Z.eqb_spec (p_type p) Ghost) as [G|G]; [lra|]. destruct (Nat.eqb_spec j i) as [J|J]; [simpl; lra|]. destruct (Z.eqb_spec (p_type q) Ghost) as [Q|Q]; [simpl; lra|]. cbn [orb].
      rewrite (W p (nth_error_In _ _ Hp) T G). apply Rmult_le_pos; [|specialize (C (p_vel q)); lra].
      apply w_nonneg, euclid_pos. apply (A i j); auto.
  - rewrite (rsum_zero (drag c re ps i)); [lra|]. intros j _. unfold drag. now rewrite Hp.
Qed.

Lemma visc_coeff_R (s : @settings Rnum) rv : visc_coeff s rv = s_nu s * (2 * IZR (s_dim s)) / (rv_n0 rv * rv_lambda rv).
Proof. reflexivity. Qed.
Lemma visc_coeff_nonneg (s : @settings Rnum) rv : viscous s rv -> 0 <= visc_coeff s rv.
Proof.
  intros (N & _ & D & P & L). rewrite visc_coeff_R. unfold Rdiv. apply Rmult_le_pos; [apply Rmult_le_pos; [exact N|]|].
  - destruct D as [-> | ->]; lra.
  - left. apply Rinv_0_lt_compat. now apply Rmult_lt_0_compat.
Qed.
Lemma dot_sq v : 0 <= dotR v v.
Proof. unfold dotR. pose proof (Rle_0_sqr (vx v)). pose proof (Rle_0_sqr (vy v)). pose proof (Rle_0_sqr (vz v)). unfold Rsqr in *. lra. Qed.
Lemma dot_zero : dotR zeroR zeroR = 0.
Proof. unfold dotR, zeroR. cbn [vx vy vz]. ringR. Qed.

(** ** the rate of work *)
Lemma visc_power (s : @settings Rnum) rv rs rho ps ps' : viscous s rv -> listed rs ps -> apart ps -> s_reL s <= rs -> walls_rest ps -> 0 <= rho -> uniform rho ps ->
  @calViscosity Rnum s rv (s_reL s) ps = Ok ps' -> power ps ps' <= 0.
Proof.
  intros V L A Hr W R0 U E. destruct (calViscosity_R s rv rs ps L A Hr) as (ps1 & E' & Ln & H). rewrite E in E'. injection E' as <-.
  assert (K := fluid_part (fun v => dotR v v) (s_reL s) ps A dot_sq). specialize (K ltac:(intros p IN T G; rewrite (W p IN T G); apply dot_zero)).
  assert (C := visc_coeff_nonneg s rv V).
  assert (B : power ps ps' <= rho * visc_coeff s rv / 2 * rsum (map (fun i => match nth_error ps i with
      | Some p => if (p_type p =? Fluid)%Z then sum_others ps i (fun _ q => w_spec (s_reL s) (euclid (p_pos p) (p_pos q)) * (dotR (p_vel q) (p_vel q) - dotR (p_vel p) (p_vel p))) else 0
      | None => 0 end) (seq 0 (List.length ps)))).
  { rewrite <- rsum_mul. unfold power. apply rsum_le. intros i _. destruct (nth_error ps i) as [p|] eqn:Hp; [|lra].
    destruct (H i p Hp) as (p' & -> & H1 & H2). destruct (Z.eqb_spec (p_type p) Fluid) as [T|T]; [|lra]. rewrite (H2 T).
    cbn [p_acc set_acc]. rewrite (U p (nth_error_In _ _ Hp) T).
    replace (diffR (addR (p_acc p) (scaleR (visc_coeff s rv) (shear (s_reL s) ps i p))) (p_acc p)) with (scaleR (visc_coeff s rv) (shear (s_reL s) ps i p)) by vec_ring.
    replace (dotR (p_vel p) (scaleR (visc_coeff s rv) (shear (s_reL s) ps i p))) with (visc_coeff s rv * dotR (p_vel p) (shear (s_reL s) ps i p)) by (unfold dotR, scaleR; cbn [vx vy vz]; ringR).
    unfold shear. rewrite sum_others_dot. replace (rho * (visc_coeff s rv * sum_others ps i (fun _ q => dotR (p_vel p) (scaleR (w_spec (s_reL s) (euclid (p_pos p) (p_pos q))) (diffR (p_vel q) (p_vel p))))))
      with (rho * visc_coeff s rv / 2 * sum_others ps i (fun _ q => 2 * dotR (p_vel p) (scaleR (w_spec (s_reL s) (euclid (p_pos p) (p_pos q))) (diffR (p_vel q) (p_vel p))))) by (rewrite sum_others_mul; field).
    apply Rmult_le_compat_l. { assert (0 <= rho * visc_coeff s rv) by now apply Rmult_le_pos. lra. }
    apply sum_others_le. intros j q Hq J G. assert (WN : 0 <= w_spec (s_reL s) (euclid (p_pos p) (p_pos q))).
    { apply w_nonneg, euclid_pos. apply (A i j); auto. rewrite T. discriminate. }
    set (w := w_spec (s_reL s) (euclid (p_pos p) (p_pos q))) in *. 
    assert (0 <= w * dotR (diffR (p_vel q) (p_vel p)) (diffR (p_vel q) (p_vel p))) by (apply Rmult_le_pos; [exact WN|apply dot_sq]).
    unfold dotR, diffR, scaleR in *. cbn [vx vy vz] in *. change (@num Rnum) with R in *. nra. }
  assert (0 <= rho * visc_coeff s rv) by now apply Rmult_le_pos. nra.
Qed.

(** ** the velocities after the step *)
Lemma diffusion_sum (s : @settings Rnum) rv ps i p : diffusion s rv ps i p = sum_others ps i (fun _ q => s_dt s * visc_coeff s rv * w_spec (s_reL s) (euclid (p_pos p) (p_pos q))).
Proof. unfold diffusion. rewrite <- visc_coeff_R, sum_others_mul. reflexivity. Qed.
Lemma visc_moved (s : @settings Rnum) rv rs ps ps1 i p : listed rs ps -> apart ps -> s_reL s <= rs -> at_rest ps ->
  @calViscosity Rnum s rv (s_reL s) ps = Ok ps1 -> nth_error ps i = Some p -> exists p2, nth_error (moveParticle s ps1) i = Some p2 /\ p_dens p2 = p_dens p /\ p_type p2 = p_type p /\
    (p_type p <> Fluid -> p_vel p2 = p_vel p) /\ (p_type p = Fluid -> p_vel p2 = addR (p_vel p) (scaleR (s_dt s * visc_coeff s rv) (shear (s_reL s) ps i p))).
Proof.
  intros L A Hr R0 E Hp. destruct (calViscosity_R s rv rs ps L A Hr) as (ps' & E' & Ln & H). rewrite E in E'. injection E' as <-.
  destruct (H i p Hp) as (p' & Hp' & H1 & H2). unfold moveParticle. exists (moveParticle1 s p'). split; [now apply map_nth_error|].
  unfold moveParticle1. destruct (Z.eq_dec (p_type p) Fluid) as [T|T].
  - rewrite (H2 T). cbn [set_acc p_type]. rewrite (proj2 (is_type_eq _ _)) by exact T. split; [reflexivity|]. split; [reflexivity|]. split; [contradiction|]. intros _.
    cbn [set_acc set_pos set_vel p_vel p_acc]. rewrite (R0 p (nth_error_In _ _ Hp)). destruct (shear (s_reL s) ps i p) as [a1 a2 a3]. apply vec_ext; cbn; ringR.
  - rewrite (H1 T). rewrite (proj2 (is_type_neq _ _) T). split; [reflexivity|]. split; [reflexivity|]. split; [reflexivity|contradiction].
Qed.
Lemma visc_bounded (s : @settings Rnum) rv rs ps : viscous s rv -> listed rs ps -> apart ps -> s_reL s <= rs -> at_rest ps ->
  exists ps1, @calViscosity Rnum s rv (s_reL s) ps = Ok ps1 /\ forall i p, nth_error ps i = Some p -> p_type p = Fluid -> diffusion s rv ps i p <= 1 ->
  exists p2, nth_error (moveParticle s ps1) i = Some p2 /\ forall u (c : R), dotR u (p_vel p) <= c ->
    (forall j q, nth_error ps j = Some q -> p_type q <> Ghost -> euclid (p_pos p) (p_pos q) < s_reL s -> dotR u (p_vel q) <= c) -> dotR u (p_vel p2) <= c.
Proof.
  intros V L A Hr R0. destruct (calViscosity_R s rv rs ps L A Hr) as (ps1 & E & _). exists ps1. split; [exact E|]. intros i p Hp T D.
  destruct (visc_moved s rv rs ps ps1 i p L A Hr R0 E Hp) as (p2 & Hp2 & _ & _ & _ & F). exists p2. split; [exact Hp2|]. intros u c Hs Hn. rewrite (F T).
  assert (C := visc_coeff_nonneg s rv V). set (k := s_dt s * visc_coeff s rv) in *. assert (K : 0 <= k) by (apply Rmult_le_pos; [apply V|exact C]).
  rewrite diffusion_sum in D. fold k in D.
  replace (dotR u (addR (p_vel p) (scaleR k (shear (s_reL s) ps i p)))) with (dotR u (p_vel p) + k * dotR u (shear (s_reL s) ps i p)) by (unfold dotR, addR, scaleR; cbn [vx vy vz]; ringR).
  unfold shear. rewrite sum_others_dot, <- sum_others_mul.
  apply Rle_trans with (dotR u (p_vel p) + sum_others ps i (fun _ q => (c - dotR u (p_vel p)) * (k * w_spec (s_reL s) (euclid (p_pos p) (p_pos q))))).
  - apply Rplus_le_compat_l. apply sum_others_le. intros j q Hq J G.
    assert (WN : 0 <= w_spec (s_reL s) (euclid (p_pos p) (p_pos q))).
    { apply w_nonneg, euclid_pos. apply (A i j); auto. rewrite T. discriminate. }
    replace (dotR u (scaleR (w_spec (s_reL s) (euclid (p_pos p) (p_pos q))) (diffR (p_vel q) (p_vel p))))
      with (w_spec (s_reL s) (euclid (p_pos p) (p_pos q)) * (dotR u (p_vel q) - dotR u (p_vel p))) by (unfold dotR, diffR, scaleR; cbn [vx vy vz]; ringR).
    destruct (Rlt_dec (euclid (p_pos p) (p_pos q)) (s_reL s)) as [N|N].
    + assert (dotR u (p_vel q) <= c) by (apply (Hn j q); auto). assert (0 <= k * w_spec (s_reL s) (euclid (p_pos p) (p_pos q))) by now apply Rmult_le_pos. nra.
    + assert (WZ : w_spec (s_reL s) (euclid (p_pos p) (p_pos q)) = 0) by (apply w_out; lra). rewrite WZ. lra.
  - rewrite sum_others_mul. assert (c - dotR u (p_vel p) >= 0) by lra.
    assert (0 <= (c - dotR u (p_vel p)) * (1 - sum_others ps i (fun _ q => k * w_spec (s_reL s) (euclid (p_pos p) (p_pos q))))) by (apply Rmult_le_pos; lra). lra.
Qed.

(** ** energy *)
Lemma jensen (s : @settings Rnum) ps i p k u : apart ps -> nth_error ps i = Some p -> p_type p = Fluid -> 0 <= k ->
  sum_others ps i (fun _ q => k * w_spec (s_reL s) (euclid (p_pos p) (p_pos q))) <= 1 ->
  u = addR (p_vel p) (scaleR k (shear (s_reL s) ps i p)) ->
  dotR u u <= dotR (p_vel p) (p_vel p) + k * sum_others ps i (fun _ q => w_spec (s_reL s) (euclid (p_pos p) (p_pos q)) * (dotR (p_vel q) (p_vel q) - dotR (p_vel p) (p_vel p))).
Proof.
  intros A Hp T K D EU. set (S := sum_others ps i (fun _ q => k * w_spec (s_reL s) (euclid (p_pos p) (p_pos q)))) in *.
  assert (Q : forall x : vecR, 2 * dotR u x - dotR u u <= dotR x x).
  { intros x. assert (H := dot_sq (diffR u x)). unfold dotR, diffR in *. cbn [vx vy vz] in *. change (@num Rnum) with R in *. nra. }
  assert (UU : dotR u u = dotR u (p_vel p) + k * dotR u (shear (s_reL s) ps i p)).
  { rewrite EU at 2. unfold dotR, addR, scaleR; cbn [vx vy vz]; ringR. }
  unfold shear in UU. rewrite sum_others_dot, <- sum_others_mul in UU.
  assert (M : sum_others ps i (fun _ q => 2 * (k * dotR u (scaleR (w_spec (s_reL s) (euclid (p_pos p) (p_pos q))) (diffR (p_vel q) (p_vel p)))))
            <= k * sum_others ps i (fun _ q => w_spec (s_reL s) (euclid (p_pos p) (p_pos q)) * (dotR (p_vel q) (p_vel q) - dotR (p_vel p) (p_vel p)))
               + (dotR (p_vel p) (p_vel p) + dotR u u - 2 * dotR u (p_vel p)) * S).
  { unfold S. rewrite <- !sum_others_mul, <- sum_others_add. apply sum_others_le. intros j q Hq J G.
    assert (WN : 0 <= w_spec (s_reL s) (euclid (p_pos p) (p_pos q))).
    { apply w_nonneg, euclid_pos. apply (A i j); auto. rewrite T. discriminate. }
    set (w := w_spec (s_reL s) (euclid (p_pos p) (p_pos q))) in *.
    replace (dotR u (scaleR w (diffR (p_vel q) (p_vel p)))) with (w * (dotR u (p_vel q) - dotR u (p_vel p))) by (unfold dotR, diffR, scaleR; cbn [vx vy vz]; ringR).
    assert (KW : 0 <= k * w) by now apply Rmult_le_pos. specialize (Q (p_vel q)).
    assert (0 <= k * w * (dotR (p_vel q) (p_vel q) - (2 * dotR u (p_vel q) - dotR u u))) by (apply Rmult_le_pos; lra). nra. }
  rewrite sum_others_mul in M. specialize (Q (p_vel p)).
  assert (0 <= (1 - S) * (dotR (p_vel p) (p_vel p) - (2 * dotR u (p_vel p) - dotR u u))) by (apply Rmult_le_pos; lra). nra.
Qed.
Lemma visc_energy (s : @settings Rnum) rv rs rho ps : viscous s rv -> listed rs ps -> apart ps -> s_reL s <= rs -> at_rest ps -> walls_rest ps -> 0 <= rho -> uniform rho ps ->
  (forall i p, nth_error ps i = Some p -> p_type p = Fluid -> diffusion s rv ps i p <= 1) ->
  exists ps1, @calViscosity Rnum s rv (s_reL s) ps = Ok ps1 /\ fluid_energy (moveParticle s ps1) <= fluid_energy ps.
Proof.
  intros V L A Hr R0 W RP U D. destruct (calViscosity_R s rv rs ps L A Hr) as (ps1 & E & LN & _). exists ps1. split; [exact E|].
  assert (KS := fluid_part (fun v => dotR v v) (s_reL s) ps A dot_sq). specialize (KS ltac:(intros p IN T G; rewrite (W p IN T G); apply dot_zero)).
  assert (C := visc_coeff_nonneg s rv V). set (k := s_dt s * visc_coeff s rv) in *. assert (K : 0 <= k) by (apply Rmult_le_pos; [apply V|exact C]).
  unfold fluid_energy. rewrite (rsum_seq _ (moveParticle s ps1)), (rsum_seq _ ps). unfold moveParticle at 2. rewrite map_length, LN.
  assert (B : rsum (map (fun i => match nth_error (moveParticle s ps1) i with Some a => if (p_type a =? Fluid)%Z then p_dens a * dotR (p_vel a) (p_vel a) / 2 else 0 | None => 0 end) (seq 0 (List.length ps)))
     <= rsum (map (fun i => match nth_error ps i with Some a => if (p_type a =? Fluid)%Z then p_dens a * dotR (p_vel a) (p_vel a) / 2 else 0 | None => 0 end
        + rho * k / 2 * match nth_error ps i with Some p => if (p_type p =? Fluid)%Z then sum_others ps i (fun _ q => w_spec (s_reL s) (euclid (p_pos p) (p_pos q)) * (dotR (p_vel q) (p_vel q) - dotR (p_vel p) (p_vel p))) else 0 | None => 0 end) (seq 0 (List.length ps)))).
  { apply rsum_le. intros i IN. destruct (nth_error ps i) as [p|] eqn:Hp.
    - destruct (visc_moved s rv rs ps ps1 i p L A Hr R0 E Hp) as (p2 & -> & -> & -> & F1 & F2). destruct (Z.eqb_spec (p_type p) Fluid) as [T|T]; [|lra].
      rewrite (U p (nth_error_In _ _ Hp) T). specialize (D i p Hp T). rewrite diffusion_sum in D. fold k in D.
      assert (J := jensen s ps i p k (p_vel p2) A Hp T K D (F2 T)). nra.
    - apply nth_error_None in Hp. apply in_seq in IN. lia. }
  rewrite rsum_add, rsum_mul in B. assert (0 <= rho * k) by now apply Rmult_le_pos. nra.
Qed.

(** ** the resultant *)
Lemma visc_balanced (s : @settings Rnum) rv rs rho ps : listed rs ps -> apart ps -> s_reL s <= rs -> at_rest ps ->
  (forall p, In p ps -> p_type p = Fluid /\ p_dens p = rho) ->
  exists ps1, @calViscosity Rnum s rv (s_reL s) ps = Ok ps1 /\ net_force ps1 = zeroR /\ momentum (moveParticle s ps1) = momentum ps.
Proof.
  intros L A Hr R0 U. destruct (C19_momentum_lemma s rv rs ps L A Hr ltac:(intros p H; left; apply U, H)) as (ps1 & E & S). exists ps1. split; [exact E|].
  destruct (calViscosity_R s rv rs ps L A Hr) as (ps' & E' & Ln & H). rewrite E in E'. injection E' as <-.
  assert (D : forall p, In p ps1 -> p_dens p = rho).
  { intros p IN. destruct (In_nth_error _ _ IN) as [i Hi]. destruct (nth_error ps i) as [p0|] eqn:Hp; [|apply nth_error_None in Hp; assert (X : nth_error ps1 i <> None) by congruence; apply nth_error_Some in X; lia].
    destruct (H i p0 Hp) as (p' & Hp' & _ & F). destruct (U p0 (nth_error_In _ _ Hp)) as [T X]. rewrite Hi in Hp'. injection Hp' as <-. rewrite (F T). exact X. }
  assert (Z : vsum (map p_acc ps) = zeroR).
  { unfold vsum. unfold zeroR. f_equal; rewrite map_map; apply rsum_zero; intros p IN; rewrite (R0 p IN); reflexivity. }
  rewrite Z in S.
  assert (N : forall c : vecR -> R, rsum (map (fun p => p_dens p * c (p_acc p)) ps1) = rho * rsum (map c (map p_acc ps1))).
  { intros c. rewrite map_map, <- rsum_mul. apply rsum_ext. intros p IN. now rewrite (D p IN). }
  split.
  - unfold net_force, vsum. rewrite !map_map. unfold scaleR. cbn [vx vy vz]. unfold zeroR.
    f_equal; [eapply eq_trans; [exact (N vx)|apply (f_equal vx) in S]|eapply eq_trans; [exact (N vy)|apply (f_equal vy) in S]|eapply eq_trans; [exact (N vz)|apply (f_equal vz) in S]];
      (eapply eq_trans; [apply Rmult_eq_compat_l; exact S|cbn; ringR]).
  - assert (M : forall c d : vecR -> R, (forall v w k, c (addR v (scaleR k w)) = c v + k * c w) -> rsum (map c (map p_acc ps1)) = 0 ->
       rsum (map (fun p => p_dens p * c (p_vel p)) (moveParticle s ps1)) = rsum (map (fun p => p_dens p * c (p_vel p)) ps)).
    { intros c _ CL C0. rewrite (rsum_seq _ (moveParticle s ps1)), (rsum_seq _ ps). unfold moveParticle at 2. rewrite map_length, Ln.
      rewrite (rsum_ext _ (fun i => match nth_error ps i with Some a => p_dens a * c (p_vel a) | None => 0 end + rho * (s_dt s * match nth_error ps1 i with Some a => c (p_acc a) | None => 0 end))).
      - rewrite rsum_add, rsum_mul, rsum_mul, <- Ln, <- (rsum_seq (fun p => c (p_acc p))). rewrite map_map in C0. rewrite C0. ring.
      - intros i _. destruct (nth_error ps i) as [p|] eqn:Hp.
        + destruct (visc_moved s rv rs ps ps1 i p L A Hr R0 E Hp) as (p2 & Hp2 & D2 & _ & _ & F). rewrite Hp2.
          destruct (H i p Hp) as (p' & Hp' & _ & F'). destruct (U p (nth_error_In _ _ Hp)) as [T X]. rewrite Hp', (F' T). cbn [set_acc p_acc].
          rewrite D2, (F T), CL, X, (R0 p (nth_error_In _ _ Hp)), CL. replace (c vzero) with 0; [ring|].
          assert (V := CL zeroR zeroR 0). assert (V1 := CL zeroR zeroR 1).
          replace (addR zeroR (scaleR 1 zeroR)) with zeroR in V1 by (unfold addR, scaleR, zeroR; cbn; f_equal; ringR). change (@vzero Rnum) with zeroR. lra.
        + assert (X : nth_error ps1 i = None) by (apply nth_error_None; apply nth_error_None in Hp; lia).
          unfold moveParticle. rewrite (proj2 (nth_error_None _ _)) by (rewrite map_length; apply nth_error_None; exact X). rewrite X. ring. }
    unfold momentum, vsum. rewrite !map_map. cbn [along zeroR vx vy vz].
    assert (PL : forall l : list partR, forall c : vecR -> R, rsum (map (fun p => 0 + p_dens p * c (p_vel p)) l) = rsum (map (fun p => p_dens p * c (p_vel p)) l)) by (intros; apply rsum_ext; intros; ring).
    f_equal.
    + eapply eq_trans; [exact (PL _ vx)|]. eapply eq_trans; [|symmetry; exact (PL _ vx)]. apply (M vx vx); [intros; cbn; ringR|]. exact (f_equal vx S).
    + eapply eq_trans; [exact (PL _ vy)|]. eapply eq_trans; [|symmetry; exact (PL _ vy)]. apply (M vy vy); [intros; cbn; ringR|]. exact (f_equal vy S).
    + eapply eq_trans; [exact (PL _ vz)|]. eapply eq_trans; [|symmetry; exact (PL _ vz)]. apply (M vz vz); [intros; cbn; ringR|]. exact (f_equal vz S).
Qed.
