(** * Cases for the statements about coordinates that are not numbers (C86) *)
From Coq Require Import String.
From Flocq Require Import BinarySingleNaN.
From Verif Require Import SimCases StepCasesF LoaderCases EndingsCases GeneratorFiles LoaderFacts NeighborThms NeighborCases NeighborF NanFacts TwinFacts SpecEnds.
Open Scope list_scope.
Open Scope Z_scope.
#[local] Remove Hints Rnum : typeclass_instances.

Lemma lost_trapped : Exists (trapped dam) NeighborCases.lost.
Proof.
  apply Exists_cons_tl, Exists_cons_hd. split; [discriminate|]. split; [apply inDomain_outside; vm_compute; reflexivity|].
  intros (_ & H & _). vm_compute in H. discriminate.
Qed.
Lemma lost_indexed : indexed NeighborCases.lost.
Proof. intros [|[|[|i]]] p H; simpl in H; inv H; reflexivity. Qed.
Lemma lost_used : exists ns, @used_searcher F64 re31 dam (List.length NeighborCases.lost) ns.
Proof. destruct lost_run as (ns & H & _). exists ns. now apply used_new. Qed.
(** x is NaN, y is 100 m: outside *)
Definition gone : list partF := [ pf 0 Fluid half half; pf 1 Fluid B754_nan (@nofZ F64 100) ].
Lemma gone_indexed : indexed gone.
Proof. intros [|[|[|i]]] p H; simpl in H; inv H; reflexivity. Qed.
Lemma gone_free : ~ Exists (trapped dam) gone /\ ~ numeric gone.
Proof.
  split.
  - intros H. apply Exists_exists in H as (p & [<-|[<-|[]]] & _ & A & B).
    + apply B. repeat split; vm_compute; reflexivity.
    + apply inDomain_outside in A. vm_compute in A. discriminate.
  - intros H. destruct (H (pf 1 Fluid B754_nan (@nofZ F64 100))) as (H1 & _); [right; left; reflexivity|discriminate|discriminate H1].
Qed.
Lemma gone_ghost : exists ns ns' p q, @newSearcher F64 re31 dam 2 = Ok ns /\ @setNeighbors F64 ns gone = Ok (ns', [p; q]) /\ p_type q = Ghost.
Proof.
  destruct (dam_searcher 2) as [ns E1].
  assert (B : match @newSearcher F64 re31 dam 2 with Ok ns => match @setNeighbors F64 ns gone with Ok (_, [p; q]) => p_type q =? Ghost | _ => false end | _ => false end = true) by (vm_compute; reflexivity).
  rewrite E1 in B. destruct (@setNeighbors F64 ns gone) as [[ns' [|p [|q [|]]]]| | | | |] eqn:E2; try discriminate B. apply Z.eqb_eq in B. exists ns, ns', p, q. auto.
Qed.

(** the machine of a state with a particle that is nowhere *)
Lemma nowhere_meets : exists m : @mps F64, sound m /\ radiusF (s_reMax (m_settings m)) /\ proper_domainF (s_domain (m_settings m)) /\ meets_nan m.
Proof.
  assert (K : match @factoryCreate F64 fid fid c20 (settingsF "Explicit") nowhere with Ok _ => true | _ => false end = true) by (vm_compute; reflexivity).
  destruct (@factoryCreate F64 fid fid c20 (settingsF "Explicit") nowhere) as [m|u| |c| |] eqn:E; try discriminate K.
  destruct (factory_sound _ _ _ _ _ _ E) as (SD & EP & ES).
  - intros [|[|[|i]]] p H; simpl in H; inv H; reflexivity.
  - intros p H. simpl in H. intuition (subst; reflexivity).
  - exists m. split; [exact SD|]. rewrite ES. split; [exact re31_radius|]. split; [exact dam_proper|]. exists (m_ns m), (m_ps m). split; [auto|]. rewrite EP, ES.
    apply Exists_cons_tl, Exists_cons_hd. split; [discriminate|]. split; [apply inDomain_outside; vm_compute; reflexivity|]. intros (H & _). discriminate H.
Qed.
Lemma cross_free : exists m : @mps F64, sound m /\ radiusF (s_reMax (m_settings m)) /\ proper_domainF (s_domain (m_settings m)) /\ ~ meets_nan m.
Proof.
  destruct (cross_step "Explicit" (or_intror eq_refl)) as (m & m' & _ & SD & _ & ES & F & _). exists m.
  assert (RD : radiusF (s_reMax (m_settings m)) /\ proper_domainF (s_domain (m_settings m))) by (rewrite ES; exact (conj re31_radius dam_proper)).
  destruct RD as (RF & PD). split; [exact SD|]. split; [exact RF|]. split; [exact PD|]. intros M. rewrite (step_trapped solver0 m SD RF PD M) in F. discriminate F.
Qed.

(** two particles in one place, at rest; the release build *)
Definition release (meth : string) : @settings F64 :=
  @mkS F64 false 2 fl0 (bits 0x3f50624dd2f1a9fc) c20 (bits 0x3fa47ae147ae147b) (bits 0x3fd3333333333333) dam
    (bits 0x3eb0c6f7a0b5ed8d) (bits 0x408f400000000000) true (@mkV F64 c00 (bits 0xc02399999999999a) c00) (bits 0x402399999999999a) c00
    (bits 0x3fef0a3d70a3d70a) true (bits 0x3ff0000000000000) meth (bits 0x3dfeec7bd512b572) (bits 0x3fc999999999999a)
    (bits 0x403119999999999a) (bits 0x3f8999999999999a) (bits 0x3fc999999999999a)
    re31 (bits 0x3faae147ae147ae2) re31 re31 "input.prof"%string true.
Definition pair_up : list partF := [ pf 0 Fluid half half; pf 1 Fluid half half; pf 2 Wall c00 c00 ].
Lemma twins_case : exists (m : @mps F64) p q, sound m /\ radiusF (s_reMax (m_settings m)) /\ proper_domainF (s_domain (m_settings m)) /\
  s_asserts (m_settings m) = false /\ @nlt F64 (B754_zero false) (s_reL (m_settings m)) = true /\
  nth_error (m_ps m) 0 = Some p /\ nth_error (m_ps m) 1 = Some q /\ p_type p = Fluid /\ p_type q <> Ghost /\
  p_pos q = p_pos p /\ p_vel q = p_vel p /\ ~ outside (s_domain (m_settings m)) (p_pos p) /\ numeric (m_ps m).
Proof.
  assert (K : match @factoryCreate F64 fid fid c20 (release "Explicit") pair_up with Ok _ => true | _ => false end = true) by (vm_compute; reflexivity).
  destruct (@factoryCreate F64 fid fid c20 (release "Explicit") pair_up) as [m|u| |c| |] eqn:E; try discriminate K.
  destruct (factory_sound _ _ _ _ _ _ E) as (SD & EP & ES).
  - intros [|[|[|[|i]]]] p H; simpl in H; inv H; reflexivity.
  - intros p H. simpl in H. intuition (subst; reflexivity).
  - exists m, (pf 0 Fluid half half), (pf 1 Fluid half half). split; [exact SD|]. rewrite ES, EP. split; [exact re31_radius|]. split; [exact dam_proper|].
    split; [reflexivity|]. split; [vm_compute; reflexivity|]. split; [reflexivity|]. split; [reflexivity|]. split; [reflexivity|]. split; [discriminate|]. split; [reflexivity|]. split; [reflexivity|].
    split; [apply inDomain_outside; vm_compute; reflexivity|]. intros p H _. simpl in H. destruct H as [<-|[<-|[<-|[]]]]; repeat split; vm_compute; reflexivity.
Qed.
(** a file with two particles in one place, loaded by the release build *)
Definition twice_disk : filesystem := put (world "good" []) particle_path (File twice).
Definition domain_check (d : domF) : bool :=
  forallb (fun x : f64 => is_finite x) [xMin d; xMax d; yMin d; yMax d; zMin d; zMax d] && @nle F64 (xMin d) (xMax d) && @nle F64 (yMin d) (yMax d) && @nle F64 (zMin d) (zMax d) &&
  f64_eqb (xLength d) (@nsub F64 (xMax d) (xMin d)) && f64_eqb (yLength d) (@nsub F64 (yMax d) (yMin d)) && f64_eqb (zLength d) (@nsub F64 (zMax d) (zMin d)).
Lemma domain_checked d : domain_check d = true -> proper_domainF d.
Proof.
  unfold domain_check. cbn [forallb]. rewrite !andb_true_iff. intros (((((((A1 & A2 & A3 & A4 & A5 & A6 & _) & B1) & B2) & B3) & C1) & C2) & C3). apply f64_eqb_eq in C1, C2, C3.
  exact (conj A1 (conj A2 (conj A3 (conj A4 (conj A5 (conj A6 (conj B1 (conj B2 (conj B3 (conj C1 (conj C2 C3))))))))))).
Qed.
Definition pair_check (i : input) : bool :=
  match i_particles i with
  | [p; q] => (p_type p =? Fluid) && (p_type q =? Fluid) && vec_eqb (p_pos q) (p_pos p) && vec_eqb (p_vel q) (p_vel p) && isInDomain (s_domain (i_settings i)) (p_pos p) && negb (nan (vx (p_pos p))) && negb (nan (vy (p_pos p))) && negb (nan (vz (p_pos p)))
  | _ => false
  end.
Definition input_check (dbg : bool) (i : input) : bool :=
  let s := i_settings i in pair_check i &&
  is_finite (s_reMax s : f64) && @nlt F64 (@nofZ F64 0) (s_reMax s) && domain_check (s_domain s) && Bool.eqb (s_asserts s) dbg && @nlt F64 (B754_zero false) (s_reL s) && @nlt F64 (i_start i) (s_endTime s) &&
  match @factoryCreate F64 fid fid c20 s (i_particles i) with Ok _ => true | _ => false end.
Definition load_check (dbg : bool) (r : filesystem * outcome input) : bool := match snd r with Ok i => input_check dbg i | _ => false end.
Lemma load_checked dbg r : load_check dbg r = true -> exists f1 i, r = (f1, Ok i) /\ input_check dbg i = true.
Proof. unfold load_check. destruct r as [f1 [i|u| |c| |]]; cbn [snd]; try discriminate. intros H. exists f1, i. auto. Qed.
Notation loadT dbg := (load parseE read_int read_dbl read_bool read_int read_dbl dbg setting_path out_dir).
Lemma twice_loads dbg : load_check dbg (loadT dbg twice_disk) = true.
Proof. destruct dbg; vm_compute; reflexivity. Qed.
Lemma pp_dbg dbg y s pp cores : y = confF "Explicit" "./in.prof" -> @loadSettingYaml F64 read_int read_dbl read_bool dbg (parent setting_path) y = Ok (s, pp, cores) -> pp = particle_path.
Proof.
  intros -> L. apply (@settings_loaded F64) in L as (_ & L & _). unfold settings_in in L. do 28 destruct L as (_ & L).
  destruct L as ((tx & [T|[T _]] & D) & _); apply resolve_iff in D; subst pp; apply at_key_some in T; [injection T as <-; reflexivity|discriminate T].
Qed.
Lemma twice_case dbg : exists f1 i m p q, loadT dbg twice_disk = (f1, Ok i) /\ room out_dir f1 /\ @factoryCreate F64 fid fid c20 (i_settings i) (i_particles i) = Ok m /\
  Z.of_nat (List.length (i_particles i)) * 3 <= int_max /\
  radiusF (s_reMax (i_settings i)) /\ proper_domainF (s_domain (i_settings i)) /\ s_asserts (i_settings i) = dbg /\ @nlt F64 (B754_zero false) (s_reL (i_settings i)) = true /\
  @nlt F64 (i_start i) (s_endTime (i_settings i)) = true /\
  nth_error (i_particles i) 0 = Some p /\ nth_error (i_particles i) 1 = Some q /\ p_type p = Fluid /\ p_type q <> Ghost /\
  p_pos q = p_pos p /\ p_vel q = p_vel p /\ ~ outside (s_domain (i_settings i)) (p_pos p) /\ numeric (i_particles i).
Proof.
  destruct (load_checked dbg _ (twice_loads dbg)) as (f1 & i & L & C). unfold input_check in C. cbv zeta in C. rewrite !andb_true_iff in C. destruct C as (((((((C1 & C2) & C3) & C4) & C5) & C6) & C7) & C8).
  destruct (@factoryCreate F64 fid fid c20 (i_settings i) (i_particles i)) as [m|u| |c| |] eqn:FC; try discriminate C8.
  unfold pair_check in C1. destruct (i_particles i) as [|p [|q [|]]] eqn:EI; try discriminate C1. rewrite !andb_true_iff in C1. destruct C1 as (((((((D1 & D2) & D3) & D4) & D5) & D6) & D7) & D8). rewrite negb_true_iff in D6, D7, D8.
  exists f1, i, m, p, q. rewrite EI. split; [exact L|]. split.
  { apply load_ok in L as (sb & y & pp & cores & pb & S & P & L & _ & _ & _ & _ & _ & _ & ->).
    unfold twice_disk in S. rewrite put_other in S by discriminate. injection S as <-. injection P as <-. apply (pp_dbg dbg _ _ _ _ eq_refl) in L. subst pp.
    apply room_put; [apply room_put; [apply room_put; [apply world_room|discriminate|]|discriminate|]|discriminate|]; intros kind [<-|[<-|[<-|[]]]]; discriminate. }
  split; [exact FC|]. split; [cbn [List.length]; unfold int_max; lia|]. split; [exact (conj C2 C3)|]. split; [exact (domain_checked _ C4)|]. split; [now apply Bool.eqb_prop|]. split; [exact C6|]. split; [exact C7|].
  split; [reflexivity|]. split; [reflexivity|]. apply Z.eqb_eq in D1, D2. split; [exact D1|]. split; [rewrite D2; discriminate|]. split; [exact (vec_eqb_eq _ _ D3)|]. split; [exact (vec_eqb_eq _ _ D4)|]. split; [apply inDomain_outside; exact D5|]. intros x [<-|[<-|[]]] _; [|rewrite (vec_eqb_eq _ _ D3)]; exact (conj D6 (conj D7 D8)).
Qed.

(** a pair in one place with different velocities (0.5 m/s along x, 0.5 m/s along y) *)
Definition pair_parts : list partF :=
  [ @newParticle F64 0 Fluid (@mkV F64 half half c00) (@mkV F64 half c00 c00) (@nofZ F64 1000) 0;
    @newParticle F64 1 Fluid (@mkV F64 half half c00) (@mkV F64 c00 half c00) (@nofZ F64 1000) 0; pf 2 Wall c00 c00 ].
Definition pair_run (s : @settings F64) : option (outcome (@mps F64) * @mps F64) :=
  match @factoryCreate F64 fid fid c20 s pair_parts with Ok m => Some (stepForward solver0 m, m) | _ => None end.
Lemma pair_machine s : s_reMax s = re31 -> s_domain s = dam -> pair_run s <> None ->
  exists m, pair_run s = Some (stepForward solver0 m, m) /\ sound m /\ m_settings m = s /\ m_ps m = pair_parts /\ radiusF (s_reMax s) /\ proper_domainF (s_domain s) /\ numeric pair_parts /\
    forall p, In p pair_parts -> ~ outside (s_domain s) (p_pos p).
Proof.
  intros ER ED H. unfold pair_run in *. destruct (@factoryCreate F64 fid fid c20 s pair_parts) as [m|u| |c| |] eqn:E; try (now destruct H). exists m. split; [reflexivity|].
  destruct (factory_sound _ _ _ _ _ _ E) as (SD & EP & ES).
  - intros [|[|[|[|i]]]] p K; simpl in K; inv K; reflexivity.
  - intros p K. simpl in K. intuition (subst; reflexivity).
  - split; [exact SD|]. split; [exact ES|]. split; [exact EP|]. rewrite ER, ED. split; [exact re31_radius|]. split; [exact dam_proper|]. split.
    + intros p K _. simpl in K. destruct K as [<-|[<-|[<-|[]]]]; repeat split; vm_compute; reflexivity.
    + intros p K. apply inDomain_outside. simpl in K. destruct K as [<-|[<-|[<-|[]]]]; vm_compute; reflexivity.
Qed.
Definition completes {A} (o : option (outcome A * A)) : bool := match o with Some (Ok _, _) => true | _ => false end.
Lemma completes_ok {A} (a : A) o : completes (Some (o, a)) = true -> exists b, o = Ok b.
Proof. destruct o; cbn; try discriminate. eauto. Qed.
Lemma pair_lost_case meth : meth = "Implicit"%string \/ meth = "Explicit"%string ->
  exists (m m' : @mps F64) p q, s_method (m_settings m) = meth /\ sound m /\ radiusF (s_reMax (m_settings m)) /\ proper_domainF (s_domain (m_settings m)) /\
    s_asserts (m_settings m) = false /\ @nlt F64 (B754_zero false) (s_reL (m_settings m)) = true /\
    nth_error (m_ps m) 0 = Some p /\ nth_error (m_ps m) 1 = Some q /\ p_type p = Fluid /\ p_type q <> Ghost /\
    p_pos q = p_pos p /\ ~ outside (s_domain (m_settings m)) (p_pos p) /\ numeric (m_ps m) /\ stepForward solver0 m = Ok m'.
Proof.
  intros M. assert (K : completes (pair_run (release meth)) = true) by (destruct M as [-> | ->]; vm_compute; reflexivity).
  destruct (pair_machine (release meth) eq_refl eq_refl) as (m & PR & SD & ES & EP & RF & PD & NU & O); [intros X; rewrite X in K; discriminate K|].
  rewrite PR in K. apply completes_ok in K as (m' & K). exists m, m'. eexists _, _. rewrite ES, EP. split; [reflexivity|]. split; [exact SD|]. split; [exact RF|]. split; [exact PD|]. split; [reflexivity|]. split; [vm_compute; reflexivity|].
  split; [reflexivity|]. split; [reflexivity|]. split; [reflexivity|]. split; [discriminate|]. split; [reflexivity|]. split; [apply O; left; reflexivity|]. split; [exact NU|exact K].
Qed.
Lemma pair_assert_case : exists (m : @mps F64) p q, sound m /\ radiusF (s_reMax (m_settings m)) /\ proper_domainF (s_domain (m_settings m)) /\
    s_asserts (m_settings m) = true /\ @nlt F64 (B754_zero false) (s_reL (m_settings m)) = true /\ numeric (m_ps m) /\
    nth_error (m_ps m) 0 = Some p /\ nth_error (m_ps m) 1 = Some q /\ p_type p = Fluid /\ p_type q <> Ghost /\
    p_pos q = p_pos p /\ ~ outside (s_domain (m_settings m)) (p_pos p).
Proof.
  assert (K : match pair_run (settingsF "Explicit") with Some _ => true | None => false end = true) by (vm_compute; reflexivity).
  destruct (pair_machine (settingsF "Explicit") eq_refl eq_refl) as (m & PR & SD & ES & EP & RF & PD & NU & O); [intros X; rewrite X in K; discriminate K|].
  exists m. eexists _, _. rewrite ES, EP. split; [exact SD|]. split; [exact RF|]. split; [exact PD|]. split; [reflexivity|]. split; [vm_compute; reflexivity|]. split; [exact NU|].
  split; [reflexivity|]. split; [reflexivity|]. split; [reflexivity|]. split; [discriminate|]. split; [reflexivity|]. apply O. left. reflexivity.
Qed.
