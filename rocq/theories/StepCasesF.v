(** * Concrete time steps in doubles

    The shipped dam-break settings (input/dambreak/settings.yml) with five fluid
    particles in a cross, half a particle distance apart, and one wall particle. *)
From Verif Require Export NeighborCases ExplicitFacts.
From Coq Require Import String.
Open Scope Z_scope.
#[local] Remove Hints Rnum : typeclass_instances.

Definition fl0 := bits 0x3f9999999999999a.
Definition settingsF (meth : string) : @settings F64 :=
  @mkS F64 true 2 fl0 (bits 0x3f50624dd2f1a9fc) c20 (bits 0x3fa47ae147ae147b) (bits 0x3fd3333333333333) dam
    (bits 0x3eb0c6f7a0b5ed8d) (bits 0x408f400000000000) true (@mkV F64 c00 (bits 0xc02399999999999a) c00) (bits 0x402399999999999a) c00
    (bits 0x3fef0a3d70a3d70a) true (bits 0x3ff0000000000000) meth (bits 0x3dfeec7bd512b572) (bits 0x3fc999999999999a)
    (bits 0x403119999999999a) (bits 0x3f8999999999999a) (bits 0x3fc999999999999a)
    re31 (bits 0x3faae147ae147ae2) re31 re31 "input.prof"%string true.
Definition pf (id t : Z) (x y : f64) : partF := @newParticle F64 id t (@mkV F64 x y c00) (@vzero F64) (@nofZ F64 1000) 0.
Definition half := bits 0x3fe0000000000000.
Definition cross : list partF :=
  [ pf 0 Fluid half half; pf 1 Fluid (bits 0x3fe06a7ef9db22d1) half; pf 2 Fluid (bits 0x3fdf2b020c49ba5e) half;
    pf 3 Fluid half (bits 0x3fe06a7ef9db22d1); pf 4 Fluid half (bits 0x3fdf2b020c49ba5e); pf 5 Wall c00 c00 ].
Definition fid (x : f64) : f64 := x.
Definition machineF (meth : string) : outcome (@mps F64) := factoryCreate fid fid c20 (settingsF meth) cross.
Definition solver0 : @solver F64 := fun n _ _ => Some (repeat c00 n).


Lemma cross_indexed : indexed cross.
Proof. intros [|[|[|[|[|[|[|i]]]]]]] p H; simpl in H; inv H; reflexivity. Qed.
Lemma cross_rest : at_rest cross.
Proof. intros p H. simpl in H. intuition (subst; reflexivity). Qed.
Lemma cross_bc : forall p, In p cross -> p_bc p = Ignored.
Proof. intros p H. simpl in H. intuition (subst; reflexivity). Qed.

Lemma factory_sound {N : Num} fs fc pi s ps m : factoryCreate fs fc pi s ps = Ok m -> indexed ps -> at_rest ps -> sound m /\ m_ps m = ps /\ m_settings m = s.
Proof.
  unfold factoryCreate. intros H I A. binds H. binds H. split; [eapply newMPS_sound; eauto|]. unfold newMPS in H. binds H. binds H. binds H. binds H. inv H. auto.
Qed.

Lemma ok_check (o : outcome (@mps F64)) : match o with Ok m => match stepForward solver0 m with Ok _ => true | _ => false end | _ => false end = true ->
  exists m m', o = Ok m /\ stepForward solver0 m = Ok m'.
Proof. destruct o as [m| | | | |]; try discriminate. destruct (stepForward solver0 m) as [m'| | | | |] eqn:E; try discriminate. eauto. Qed.

(** a completed step, with either method *)
Lemma cross_step meth : meth = "Implicit"%string \/ meth = "Explicit"%string -> exists m m', machineF meth = Ok m /\ sound m /\ m_ps m = cross /\ m_settings m = settingsF meth /\ stepForward solver0 m = Ok m' /\ steps solver0 1 m m'.
Proof.
  intros H. assert (B : match machineF meth with Ok m => match stepForward solver0 m with Ok _ => true | _ => false end | _ => false end = true).
  { destruct H as [-> | ->]; vm_compute; reflexivity. }
  apply ok_check in B. destruct B as (m & m' & E & F).
  destruct (factory_sound _ _ _ _ _ _ E cross_indexed cross_rest) as (SD & EP & ES).
  exists m, m'. split; auto. split; auto. split; auto. split; auto. split; auto. econstructor; [constructor|exact F].
Qed.

(** ** C25: more than 100 Pa too high at the centre after one step *)
Definition hpa := @nofZ F64 100.
Definition recheck (m' : @mps F64) : bool :=
  match setNeighbors (m_ns m') (m_ps m') with
  | Ok (_, ps) => match calNumberDensity (m_settings m') (s_reN (m_settings m')) ps with
    | Ok ps => match m_calc m' with
      | Explicit n0 c => match explicitCalc n0 c ps with
        | Ok (x :: _) => match m_ps m' with p :: _ => @nlt F64 hpa (@nsub F64 (p_press p) x) | [] => false end
        | _ => false end
      | _ => false end
    | _ => false end
  | _ => false end.
Lemma C25_refuted_lemma : exists (m m' : @mps F64) n0 c ns ps1 ps2 x xs p rest,
  sound m /\ m_calc m = Explicit n0 c /\ stepForward solver0 m = Ok m' /\ m_ps m' = p :: rest /\
  setNeighbors (m_ns m') (m_ps m') = Ok (ns, ps1) /\ calNumberDensity (m_settings m') (s_reN (m_settings m')) ps1 = Ok ps2 /\
  explicitCalc n0 c ps2 = Ok (x :: xs) /\ @nlt F64 (@nofZ F64 100) (@nsub F64 (p_press p) x) = true.
Proof.
  destruct (cross_step "Explicit" (or_intror eq_refl)) as (m & m' & E & SD & EP & ES & F & _).
  assert (B : match machineF "Explicit" with Ok m => match stepForward solver0 m with Ok m' => recheck m' | _ => false end | _ => false end = true) by (vm_compute; reflexivity).
  rewrite E, F in B. unfold recheck in B.
  destruct (setNeighbors (m_ns m') (m_ps m')) as [[ns ps1]| | | | |] eqn:E1; try discriminate B.
  destruct (calNumberDensity (m_settings m') (s_reN (m_settings m')) ps1) as [ps2| | | | |] eqn:E2; try discriminate B.
  destruct (step_static _ _ _ F) as (_ & _ & EK & _).
  destruct (m_calc m') as [|n0 c] eqn:K; [discriminate B|].
  destruct (explicitCalc n0 c ps2) as [[|x xs]| | | | |] eqn:E3; try discriminate B.
  destruct (m_ps m') as [|p rest] eqn:EM; [discriminate B|].
  exists m, m', n0, c, ns, ps1, ps2, x, xs, p, rest. unfold hpa in B. rewrite EM. auto 12.
Qed.

(** ** C30: a dense and a sparse particle look alike *)
Definition bccheck (m' : @mps F64) : bool :=
  match m_ps m', m_calc m' with
  | p :: q :: _, Explicit n0 _ =>
      is_type p Fluid && is_type q Fluid && fs_eqb (p_bc p) (p_bc q) &&
      @nle F64 (@nmul F64 (s_sd_nd (m_settings m')) n0) (p_nd p) && @nlt F64 (p_nd q) (@nmul F64 (s_sd_nd (m_settings m')) n0)
  | _, _ => false end.
Lemma C30_refuted_lemma : exists (m m' : @mps F64) n0 c p q rest,
  sound m /\ m_calc m = Explicit n0 c /\ stepForward solver0 m = Ok m' /\ m_ps m' = p :: q :: rest /\ p_type p = Fluid /\ p_type q = Fluid /\
  p_bc p = p_bc q /\
  @nle F64 (@nmul F64 (s_sd_nd (m_settings m)) n0) (p_nd p) = true /\ @nlt F64 (p_nd q) (@nmul F64 (s_sd_nd (m_settings m)) n0) = true.
Proof.
  destruct (cross_step "Explicit" (or_intror eq_refl)) as (m & m' & E & SD & EP & ES & F & _).
  assert (B : match machineF "Explicit" with Ok m => match stepForward solver0 m with Ok m' => bccheck m' | _ => false end | _ => false end = true) by (vm_compute; reflexivity).
  rewrite E, F in B. unfold bccheck in B. destruct (step_static _ _ _ F) as (EE & _ & EK & _). rewrite EE in B.
  destruct (m_ps m') as [|p [|q rest]] eqn:EM; try discriminate B. destruct (m_calc m') as [|n0 c] eqn:K; [discriminate B|].
  apply andb_prop in B. destruct B as [B B5]. apply andb_prop in B. destruct B as [B B4]. apply andb_prop in B. destruct B as [B B3]. apply andb_prop in B. destruct B as [B1 B2].
  exists m, m', n0, c, p, q, rest. apply is_type_eq in B1, B2. split; auto. split; auto. split; auto. split; auto. split; auto. split; auto. split; auto.
  destruct (p_bc p), (p_bc q); try discriminate B3; reflexivity.
Qed.

Lemma solver0_sized : sized solver0.
Proof. intros n ts b x H. inv H. apply repeat_length. Qed.
Lemma cross_numeric : numeric cross.
Proof. intros p H _. simpl in H. intuition (subst; repeat split; vm_compute; reflexivity). Qed.
Lemma implicit_case : exists (m m' : @mps F64) det q, m_calc m = Implicit det q /\ stepForward solver0 m = Ok m' /\ m_ps m = cross.
Proof.
  destruct (cross_step "Implicit" (or_introl eq_refl)) as (m & m' & E & SD & EP & ES & F & _). exists m, m'.
  assert (B : match machineF "Implicit" with Ok m => match m_calc m with Implicit _ _ => true | _ => false end | _ => false end = true) by (vm_compute; reflexivity).
  rewrite E in B. destruct (m_calc m) as [det q|]; [|discriminate B]. exists det, q. auto.
Qed.

(** C22: a NaN velocity does not enter the Courant number *)
Lemma nan_plus a b : is_nan a = true \/ is_nan b = true -> is_nan (@nadd F64 a b) = true.
Proof. intros [H|H]; [destruct a; try discriminate; reflexivity|]. destruct b; try discriminate. destruct a; reflexivity. Qed.
Lemma nan_mult a b : is_nan a = true \/ is_nan b = true -> is_nan (@nmul F64 a b) = true.
Proof. intros [H|H]; [destruct a; try discriminate; reflexivity|]. destruct b; try discriminate. destruct a; reflexivity. Qed.
Lemma C22_nan_lemma (s : @settings F64) (l l' : list (@particle F64)) p :
  is_nan (vx (p_vel p)) = true \/ is_nan (vy (p_vel p)) = true \/ is_nan (vz (p_vel p)) = true ->
  @calCourant F64 s (l ++ p :: l') = @calCourant F64 s (l ++ l').
Proof.
  intros H. assert (E : forall c, courant1 s c p = c); [|unfold calCourant; rewrite !fold_left_app; cbn [fold_left]; now rewrite E].
  intros c. unfold courant1. destruct (is_type p Fluid); auto. unfold nmax.
  assert (X : is_nan (@ndiv F64 (@nmul F64 (vnorm (p_vel p)) (s_dt s)) (s_l0 s)) = true).
  { assert (V : is_nan (vnorm (p_vel p)) = true).
    { assert (Q : is_nan (vsqnorm (p_vel p)) = true).
      { unfold vsqnorm. apply nan_plus. destruct H as [H|[H|H]].
        - left. apply nan_plus. left. apply nan_mult. auto.
        - left. apply nan_plus. right. apply nan_mult. auto.
        - right. apply nan_mult. auto. }
      unfold vnorm. destruct (vsqnorm (p_vel p)); try discriminate. reflexivity. }
    assert (M := nan_mult _ (s_dt s) (or_introl V)). destruct (@nmul F64 (vnorm (p_vel p)) (s_dt s)); try discriminate. reflexivity. }
  destruct (@ndiv F64 (@nmul F64 (vnorm (p_vel p)) (s_dt s)) (s_l0 s)); try discriminate. destruct c as [| | |]; reflexivity.
Qed.
