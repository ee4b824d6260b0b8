(** * Numbering matters to a particle that is hit twice *)
From Coq Require Import Reals Lra Lia String.
From Verif Require Import BaseFacts StepCasesF NeighborCases.
From Verif Require Export SpecSym.
Open Scope Z_scope.
#[local] Remove Hints Rnum : typeclass_instances.

(** three fluid particles in a row, less than the collision distance apart, the left one
    flying into the others at 1 m/s *)
Definition pv (id : Z) (x u : f64) : partF := @newParticle F64 id Fluid (@mkV F64 x half c00) (@mkV F64 u c00 c00) (@nofZ F64 1000) 0.
Definition row1 := bits 0x3fe0400000000000.
Definition row2 := bits 0x3fe0800000000000.
Definition one_f := @nofZ F64 1.
Definition rightward : list partF := [ pv 0 half one_f; pv 1 row1 c00; pv 2 row2 c00 ].
Definition leftward : list partF := [ pv 0 row2 c00; pv 1 row1 c00; pv 2 half one_f ].
Definition flip3 (i : nat) : nat := (2 - i)%nat.
Lemma rightward_indexed : indexed rightward.
Proof. intros [|[|[|[|i]]]] p H; simpl in H; inv H; reflexivity. Qed.
Lemma rightward_rest : at_rest rightward.
Proof. intros p H. simpl in H. intuition (subst; reflexivity). Qed.
Lemma rightward_numeric : numeric rightward.
Proof. intros p H _. simpl in H. intuition (subst; repeat split; vm_compute; reflexivity). Qed.
Lemma leftward_indexed : indexed leftward.
Proof. intros [|[|[|[|i]]]] p H; simpl in H; inv H; reflexivity. Qed.
Lemma leftward_rest : at_rest leftward.
Proof. intros p H. simpl in H. intuition (subst; reflexivity). Qed.
Lemma rows_renumbered : renumbered flip3 rightward leftward.
Proof.
  split; [reflexivity|]. split; [change (List.length rightward) with 3%nat; unfold flip3; lia|].
  intros [|[|[|i]]] p P; cbn [rightward nth_error] in P; try (destruct i; discriminate); injection P as <-; eexists; (split; [reflexivity|]); repeat split.
Qed.

Definition row_machine (l : list partF) : outcome (@mps F64) := factoryCreate fid fid c20 (settingsF "Explicit") l.
Definition over (i : nat) (x : f64) (m : @mps F64) : bool := match nth_error (m_ps m) i with Some p => nlt x (vx (p_vel p)) | None => false end.
Definition under (i : nat) (x : f64) (m : @mps F64) : bool := match nth_error (m_ps m) i with Some p => nlt (vx (p_vel p)) x | None => false end.
Lemma overE i x m : over i x m = true -> exists p, nth_error (m_ps m) i = Some p /\ nlt x (vx (p_vel p)) = true.
Proof. unfold over. destruct (nth_error (m_ps m) i) as [p|]; [eauto|discriminate]. Qed.
Lemma underE i x m : under i x m = true -> exists p, nth_error (m_ps m) i = Some p /\ nlt (vx (p_vel p)) x = true.
Proof. unfold under. destruct (nth_error (m_ps m) i) as [p|]; [eauto|discriminate]. Qed.
Definition quarter := bits 0x3fd0000000000000.
Definition milli := bits 0x3f50624dd2f1a9fc.
Definition tested (o : outcome (@mps F64)) (t : @mps F64 -> bool) : bool :=
  match o with Ok m => match stepForward solver0 m with Ok m' => t m' | _ => false end | _ => false end.
Lemma testedE o t : tested o t = true -> exists m m', o = Ok m /\ stepForward solver0 m = Ok m' /\ t m' = true.
Proof. unfold tested. destruct o as [m| | | | |]; try discriminate. destruct (stepForward solver0 m) as [m'| | | | |] eqn:E; try discriminate. eauto 6. Qed.
Lemma factory_same l l' m m' : row_machine l = Ok m -> row_machine l' = Ok m' -> m_settings m = settingsF "Explicit" -> m_settings m' = settingsF "Explicit" -> m_gravity m' = m_gravity m /\ m_calc m' = m_calc m.
Proof.
  unfold row_machine, factoryCreate. intros E E' _ _. unfold newMPS in *.
  repeat match goal with H : bind _ _ = Ok _ |- _ => binds H | H : (match _ with Ok _ => _ | _ => _ end) = Ok _ |- _ => binds H end.
  all: repeat match goal with H : Ok _ = Ok _ |- _ => injection H as H; subst end; cbn [m_gravity m_calc]; split; congruence.
Qed.
Lemma C69_refuted_lemma : exists sigma (m1 m2 m1' m2' : @mps F64) p q,
  sound m1 /\ numeric (m_ps m1) /\ m_settings m2 = m_settings m1 /\ m_gravity m2 = m_gravity m1 /\ m_calc m2 = m_calc m1 /\
  renumbered sigma (m_ps m1) (m_ps m2) /\ stepForward solver0 m1 = Ok m1' /\ stepForward solver0 m2 = Ok m2' /\
  nth_error (m_ps m1') 2 = Some p /\ nth_error (m_ps m2') (sigma 2%nat) = Some q /\
  nlt quarter (vx (p_vel p)) = true /\ nlt (vx (p_vel q)) milli = true.
Proof.
  assert (B1 : tested (row_machine rightward) (over 2 quarter) = true) by (vm_compute; reflexivity).
  assert (B2 : tested (row_machine leftward) (under 0 milli) = true) by (vm_compute; reflexivity).
  apply testedE in B1. destruct B1 as (m1 & m1' & E1 & H1 & T1). apply testedE in B2. destruct B2 as (m2 & m2' & E2 & H2 & T2).
  destruct (factory_sound _ _ _ _ _ _ E1 rightward_indexed rightward_rest) as (SD & P1 & S1). destruct (factory_sound _ _ _ _ _ _ E2 leftward_indexed leftward_rest) as (_ & P2 & S2).
  apply overE in T1. destruct T1 as (p & Np & Vp). apply underE in T2. destruct T2 as (q & Nq & Vq).
  destruct (factory_same _ _ _ _ E1 E2 S1 S2) as (EG & EK).
  exists flip3, m1, m2, m1', m2', p, q. rewrite P1, P2. split; [exact SD|]. split; [exact rightward_numeric|]. split; [congruence|]. split; [exact EG|]. split; [exact EK|]. split; [exact rows_renumbered|]. auto 8.
Qed.
