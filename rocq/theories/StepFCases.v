(** * Concrete steps in doubles: a wall that turns NaN (C15) *)
From Verif Require Export StepF StepCasesF.
From Coq Require Import String.
Open Scope Z_scope.
#[local] Remove Hints Rnum : typeclass_instances.

(** a fluid particle of density 1e308 moving at 2 m/s towards a wall particle 1 cm below *)
Definition heavy : list partF :=
  [ @newParticle F64 0 Fluid (@mkV F64 half half c00) (@mkV F64 c00 (@nofZ F64 (-2)) c00) (bits 0x7fe1ccf385ebc8a0) 0;
    pf 1 Wall half (bits 0x3fdf5c28f5c28f5c) ].
Definition heavy_machine : outcome (@mps F64) := factoryCreate fid fid c20 (settingsF "Explicit") heavy.
Lemma heavy_indexed : indexed heavy.
Proof. intros [|[|[|i]]] p H; simpl in H; inv H; reflexivity. Qed.
Lemma heavy_rest : at_rest heavy.
Proof. intros p H. simpl in H. intuition (subst; reflexivity). Qed.
Lemma heavy_numeric : numeric heavy.
Proof. intros p H _. simpl in H. intuition (subst; repeat split; vm_compute; reflexivity). Qed.

Definition nan_wall (m' : @mps F64) : bool := match m_ps m' with _ :: p :: _ => is_nan (vy (p_vel p) : f64) | _ => false end.
Lemma C15_nan_lemma : exists (m m' : @mps F64) p p', sound m /\ numeric (m_ps m) /\ stepForward solver0 m = Ok m' /\
  nth_error (m_ps m) 1 = Some p /\ nth_error (m_ps m') 1 = Some p' /\ p_type p = Wall /\ p_vel p = @vzero F64 /\ is_nan (vy (p_vel p')) = true.
Proof.
  assert (B : match heavy_machine with Ok m => match stepForward solver0 m with Ok m' => nan_wall m' | _ => false end | _ => false end = true) by (vm_compute; reflexivity).
  destruct heavy_machine as [m| | | | |] eqn:E; try discriminate B. destruct (stepForward solver0 m) as [m'| | | | |] eqn:F; try discriminate B.
  destruct (factory_sound _ _ _ _ _ _ E heavy_indexed heavy_rest) as (SD & EP & ES).
  unfold nan_wall in B. destruct (m_ps m') as [|q [|p' r]] eqn:EM; try discriminate B.
  exists m, m'. eexists. exists p'. split; auto. rewrite EP, EM. split; [apply heavy_numeric|]. split; auto. split; [reflexivity|]. auto.
Qed.
