(** * Cases for the statements about pressures raised by a constant (C87) *)
From Coq Require Import String.
From Verif Require Import StepCasesF SpecGauge.
Open Scope list_scope.
Open Scope Z_scope.
#[local] Remove Hints Rnum : typeclass_instances.

(** two Fluid particles 1 m apart; pressures 0 and 1 *)
Definition one64 : f64 := @nofZ F64 1.
Definition near (id : Z) (x pr : f64) (j : Z) : partF := set_nbrs (set_press (pf id Fluid x c00) pr) [@mkNb F64 j one64].
Definition pushed : list partF := [ near 0 c00 c00 1; near 1 one64 one64 0 ].
Definition higher (c : f64) (ps : list partF) : list partF := map (fun p : partF => set_press p (@nadd F64 (p_press p) c)) ps.
Definition rvg : @refValues F64 := @mkRV F64 one64 one64.
Definition corrected (ps : list partF) : outcome (list partF) :=
  bind (@setMinimumPressure F64 c20 ps) (fun ps1 => bind (@calPressureGradient F64 (settingsF "Explicit") rvg c20 ps1) (fun ps2 => Ok (@moveParticleUsingPressureGradient F64 (settingsF "Explicit") ps2))).
(** 2^60 *)
Definition vast : f64 := bits 0x43b0000000000000.
Lemma corrected_splits ps l : corrected ps = Ok l -> exists ps1 ps2, @setMinimumPressure F64 c20 ps = Ok ps1 /\ @calPressureGradient F64 (settingsF "Explicit") rvg c20 ps1 = Ok ps2 /\ @moveParticleUsingPressureGradient F64 (settingsF "Explicit") ps2 = l.
Proof.
  unfold corrected. destruct (@setMinimumPressure F64 c20 ps) as [a| | | | |] eqn:A; try discriminate. cbn [bind]. destruct (@calPressureGradient F64 (settingsF "Explicit") rvg c20 a) as [b| | | | |] eqn:B; try discriminate. cbn [bind].
  intros H. injection H as H. exists a, b. split; [reflexivity|]. split; [exact B|exact H].
Qed.
Lemma pushed_check : match corrected pushed, corrected (higher vast pushed) with Ok (p :: _), Ok (q :: _) => @nlt F64 (vx (p_pos p)) (vx (p_pos q)) | _, _ => false end = true.
Proof. vm_compute. reflexivity. Qed.
Lemma rounding_acts : exists (s : @settings F64) rv re c ps qs ps1 ps2 qs1 qs2 p q, qs = map (fun p : partF => set_press p (@nadd F64 (p_press p) c)) ps /\
  setMinimumPressure re ps = Ok ps1 /\ calPressureGradient s rv re ps1 = Ok ps2 /\ setMinimumPressure re qs = Ok qs1 /\ calPressureGradient s rv re qs1 = Ok qs2 /\
  nth_error (moveParticleUsingPressureGradient s ps2) 0 = Some p /\ nth_error (moveParticleUsingPressureGradient s qs2) 0 = Some q /\ nlt (vx (p_pos p)) (vx (p_pos q)) = true.
Proof.
  pose proof pushed_check as B. pose proof (corrected_splits pushed) as S1. pose proof (corrected_splits (higher vast pushed)) as S2.
  destruct (corrected pushed) as [[|p l]| | | | |]; try discriminate B. destruct (corrected (higher vast pushed)) as [[|q l']| | | | |]; try discriminate B.
  destruct (S1 _ eq_refl) as (ps1 & ps2 & A1 & A2 & A3). destruct (S2 _ eq_refl) as (qs1 & qs2 & B1 & B2 & B3).
  exists (settingsF "Explicit"), rvg, c20, vast, pushed, (higher vast pushed), ps1, ps2, qs1, qs2, p, q. rewrite A3, B3. exact (conj eq_refl (conj A1 (conj A2 (conj B1 (conj B2 (conj eq_refl (conj eq_refl B))))))).
Qed.
