(** * Loaded particles; running the program again from one of its outputs *)
From Verif Require Import ProgramFacts FilesFacts ResumeFacts ResumeRun StepFacts SimFacts StepCasesF.
From Verif Require Export SpecRestart.
Open Scope Z_scope.

Section Made.
Context {N : Num}.
Lemma made_nil : made [].
Proof. intros [|i] p H; discriminate H. Qed.
Lemma made_add dbg ps t x v d f ps' : made ps -> add_particle dbg ps (newParticle (Z.of_nat (List.length ps)) t x v d f) = Ok ps' -> made ps'.
Proof.
  intros M H. unfold add_particle in H. binds H. inv H. intros i p P. destruct (Nat.lt_ge_cases i (List.length ps)) as [L|L].
  - rewrite nth_error_app1 in P by exact L. now apply M.
  - rewrite nth_error_app2 in P by exact L. destruct (i - List.length ps)%nat as [|n] eqn:EN; [|destruct n; discriminate P]. injection P as <-.
    replace i with (List.length ps) by lia. reflexivity.
Qed.
Lemma made_indexed ps : made ps -> indexed ps.
Proof. intros M i p H. rewrite (M i p H). reflexivity. Qed.
Lemma made_rest ps : made ps -> at_rest ps.
Proof. intros M p H. apply In_nth_error in H. destruct H as [i H]. rewrite (M i p H). reflexivity. Qed.
Lemma made_bc ps : made ps -> forall p, In p ps -> p_bc p = Ignored.
Proof. intros M p H. apply In_nth_error in H. destruct H as [i H]. rewrite (M i p H). reflexivity. Qed.
Lemma made_marks ps qs : made ps -> made qs -> List.length qs = List.length ps -> Forall2 (fun p q => p_bc p = p_bc q) ps qs.
Proof. intros M Q L. apply Forall2_of_nth; [exact L|]. intros i a b A B. rewrite (M i a A), (Q i b B). reflexivity. Qed.
End Made.

Lemma prof_rows_made dbg rho : forall n s ps ps', made ps -> prof_rows dbg rho n s ps = Ok ps' -> made ps'.
Proof.
  induction n as [|n IH]; intros s ps ps' M H; cbn [prof_rows] in H; [now inv H|].
  destruct (extract get_int s) as [ty s1]. destruct (extract3 s1) as [pos s2]. destruct (extract3 s2) as [vel s3]. binds H. binds H. binds H. eapply IH; [|exact H]. eapply made_add; eauto.
Qed.
Lemma vtu_build_made dbg rho v : forall n i ps ps', made ps -> vtu_build dbg rho v i n ps = Ok ps' -> made ps'.
Proof.
  induction n as [|n IH]; intros i ps ps' M H; cbn [vtu_build] in H; [now inv H|]. destruct (nth_error (v_pos v) i); [|discriminate]. binds H. eapply IH; [|exact H]. eapply made_add; eauto.
Qed.
Lemma csv_rows_made ci cd dbg rho h : forall ls v ps ps', made ps -> csv_rows ci cd dbg rho h ls v ps = Ok ps' -> made ps'.
Proof.
  induction ls as [|l ls IH]; intros v ps ps' M H; cbn [csv_rows] in H; [now inv H|]. binds H. binds H. binds H. binds H. binds H. binds H. binds H. eapply IH; [|exact H]. eapply made_add; eauto.
Qed.
Lemma loaded_made ci cd dbg rho fs p t ps : loadParticles ci cd dbg rho fs p = Ok (t, ps) -> made ps.
Proof.
  unfold loadParticles. destruct (text_eqb _ _).
  { destruct (fs p); [|discriminate]. unfold csv_load. intros H. destruct (lines_of _ _) as [|l1 [|l2 [|l3 rows]]]; try discriminate; binds H; try discriminate; binds H; try discriminate. binds H. binds H. inv H. eapply csv_rows_made; [apply made_nil|eauto]. }
  destruct (text_eqb _ _).
  { destruct (fs p); [|discriminate]. unfold prof_load. intros H. destruct (extract get_double _) as [a s1]. destruct (extract get_int _) as [b s2]. binds H. inv H. eapply prof_rows_made; [apply made_nil|eauto]. }
  destruct (text_eqb _ _); [|discriminate]. destruct (fs p); [|discriminate]. unfold vtu_load. intros H. binds H. destruct r; [discriminate|]. binds H. binds H. inv H. eapply vtu_build_made; [apply made_nil|eauto].
Qed.
Lemma prof_rows_dens dbg (rho : f64) : forall n s ps ps', Forall (fun p : Files.particle => p_dens p = rho) ps -> prof_rows dbg rho n s ps = Ok ps' -> Forall (fun p : Files.particle => p_dens p = rho) ps'.
Proof.
  induction n as [|n IH]; intros s ps ps' M H; cbn [prof_rows] in H; [now inv H|].
  destruct (extract get_int s) as [ty s1]. destruct (extract3 s1) as [pos s2]. destruct (extract3 s2) as [vel s3]. binds H. binds H. binds H. eapply IH; [|exact H].
  unfold add_particle in E1. binds E1. inv E1. apply Forall_app. split; [exact M|]. constructor; [reflexivity|constructor].
Qed.
Lemma prof_dens dbg (rho : f64) file t ps : prof_load dbg (rho : f64) file = Ok (t, ps) -> Forall (fun p : Files.particle => p_dens p = rho) ps.
Proof. unfold prof_load. intros H. destruct (extract get_double _) as [a s1]. destruct (extract get_int _) as [b s2]. binds H. inv H. eapply prof_rows_dens; [|eauto]. constructor. Qed.

Lemma printed_eq x y : as_printed x x -> as_printed x y -> y = x.
Proof.
  intros (F & _ & E) (F' & S & E'). apply B2R_Bsign_inj; auto. congruence.
Qed.
Lemma printed3_eq v w : all3 exact v -> rel3 as_printed v w -> w = v.
Proof. intros (A & B & C) (D & E & F). destruct v as [a b c], w as [a' b' c']. cbn [vx vy vz] in *. f_equal; now apply printed_eq. Qed.

Lemma steps_dens {N : Num} S k m m' rho : steps S k m m' -> Forall (fun p => p_dens p = rho) (m_ps m) -> Forall (fun p => p_dens p = rho) (m_ps m').
Proof.
  intros H F. induction H as [|k m m1 m2 H IH E]; [exact F|]. specialize (IH F). apply step_same_id in E. clear - IH E.
  induction E as [|p q l l' PQ E IHE]; [constructor|]. inv IH. constructor; [destruct PQ as (_ & D & _); congruence|auto].
Qed.
Lemma steps_length {N : Num} S k m m' : steps S k m m' -> List.length (m_ps m') = List.length (m_ps m).
Proof. induction 1 as [|k m a b H IH E]; [reflexivity|]. rewrite <- IH. apply step_same_id, Forall2_length in E. auto. Qed.

(** ** the program run again with an output in place of its input *)
Section Again.
Variable parse : list ascii -> option node.
Variable as_int : list ascii -> option Z.
Variable as_dbl : list ascii -> option f64.
Variable as_bool : list ascii -> option bool.
Variable cell_int : list ascii -> option Z.
Variable cell_dbl : list ascii -> option f64.
Variable fsin fcos : f64 -> f64.
Variable M_PI : f64.
Variable big dbg : bool.
Variable S : @solver F64.
Notation prog := (program parse as_int as_dbl as_bool cell_int cell_dbl fsin fcos M_PI big dbg S).

Lemma load_prof_file rho fs p b : extension p = lit ".prof" -> fs p = Some (File b) -> loadParticles cell_int cell_dbl dbg rho fs p = prof_load dbg rho b.
Proof. intros E F. unfold loadParticles. rewrite E, F. reflexivity. Qed.

Lemma program_sound real clk fuel setting out fs fs' st : prog real clk fuel setting out fs = (fs', Ok st) ->
  exists m0, made (m_ps m0) /\ sound m0 /\ steps S (Z.to_nat (si_step st)) m0 (si_mps st) /\
  forall o, In o (si_out st) -> steps S (Z.to_nat (o_step o)) m0 (o_mps o).
Proof.
  intros H. apply program_ok in H as (sb & y & pp & cores & pb & i & m & _ & _ & _ & LP & _ & C & R & _ & _ & _). assert (M := loaded_made _ _ _ _ _ _ _ _ LP).
  destruct (factory_sound _ _ _ _ _ _ C (made_indexed _ M) (made_rest _ M)) as (SD & EP & _). exists m. rewrite EP. split; [exact M|]. split; [exact SD|].
  assert (R' := R). apply run_reached in R' as (K & RE & _ & _). destruct (reached_inv _ _ _ _ _ _ (fresh_new _ _ _) RE) as (_ & _ & KK & KS & _).
  destruct (reached_schedule _ _ _ _ _ _ (fresh_new _ _ _) RE) as (_ & SC & _). rewrite KK, Nat2Z.id. split; [exact KS|].
  intros o IO. apply In_nth_error in IO. destruct IO as [j IO]. destruct (SC j o IO) as (_ & a & _ & AS & _ & ASt). rewrite AS, Nat2Z.id. exact ASt.
Qed.

Lemma again_parts real clk fuel setting out fs fs' st o real2 clk2 fuel2 out2 fs2 fs2' st2 sb y s pp cores :
  prog real clk fuel setting out fs = (fs', Ok st) -> In o (si_out st) ->
  fs setting = Some (File sb) -> parse sb = Some y -> @loadSettingYaml F64 as_int as_dbl as_bool dbg (parent setting) y = Ok (s, pp, cores) -> extension pp = lit ".prof" ->
  exact (o_time o) -> Forall printable (m_ps (o_mps o)) -> Z.of_nat (List.length (m_ps (o_mps o))) <= int_max ->
  fs2 setting = fs setting -> fs2 pp = fs' (outputPath out "prof" (o_number o)) ->
  prog real2 clk2 fuel2 setting out2 fs2 = (fs2', Ok st2) ->
  exists (t0 : f64) (ps0 : list Files.particle) (m0 : @mps F64) (qs : list Files.particle) (r : @mps F64), made ps0 /\ @factoryCreate F64 fsin fcos M_PI s ps0 = Ok m0 /\ @run F64 S real clk fuel (@newSim F64 t0 s m0) = Ok st /\
    Forall2 alike (m_ps (o_mps o)) qs /\ made qs /\ List.length qs = List.length ps0 /\ @factoryCreate F64 fsin fcos M_PI s qs = Ok r /\ @run F64 S real2 clk2 fuel2 (@newSim F64 (o_time o) s r) = Ok st2.
Proof.
  intros H IO FS PA LS EX XT XP LN F2 F2P H2.
  apply program_ok in H as (sb1 & y1 & pp1 & cores1 & pb1 & i & m & A1 & A2 & A3 & LP & FP & C & R & _ & _ & ST).
  rewrite FS in A1. injection A1 as A1; subst sb1. rewrite PA in A2. injection A2 as A2; subst y1. rewrite LS in A3. injection A3 as ES1 EP1 EC1. subst pp1 cores1. rewrite <- ES1 in LP, C, R, ST.
  apply program_ok in H2 as (sb2 & y2 & pp2 & cores2 & pb2 & i2 & m2 & B1 & B2 & B3 & LP2 & FP2 & C2 & R2 & _ & _ & _).
  rewrite F2, FS in B1. injection B1 as B1; subst sb2. rewrite PA in B2. injection B2 as B2; subst y2. rewrite LS in B3. injection B3 as ES EP2 EC2. subst pp2 cores2.
  rewrite <- ES in LP2, C2, R2.
  rewrite Forall_forall in ST. destruct (ST o IO) as (STP & _). rewrite STP in F2P.
  assert (M := loaded_made _ _ _ _ _ _ _ _ LP). assert (M2 := loaded_made _ _ _ _ _ _ _ _ LP2).
  rewrite (load_prof_file _ _ _ _ EX F2P) in LP2.
  destruct (prof_round_trip dbg (s_rho0 s) (o_time o) (m_ps (o_mps o))) as (t' & ps' & E & TE & L1 & L2); [exact (proj1 XT)|eapply Forall_impl; [|exact XP]; intros p X; apply X|exact LN|].
  rewrite LP2 in E. injection E as E1 E2. subst t' ps'. apply printed_eq in TE; [|exact XT].
  destruct (factory_sound _ _ _ _ _ _ C (made_indexed _ M) (made_rest _ M)) as (SD & EP & _).
  assert (OS : exists k, steps S k m (o_mps o)).
  { assert (R' := R). apply run_reached in R' as (K & RE & _ & _). destruct (reached_schedule _ _ _ _ _ _ (fresh_new _ _ _) RE) as (_ & SC & _).
    apply In_nth_error in IO. destruct IO as [j IO]. destruct (SC j o IO) as (_ & a & _ & _ & _ & ASt). exists a. exact ASt. }
  destruct OS as (ko & OS).
  assert (DN : Forall (fun p => p_dens p = s_rho0 s) (m_ps (o_mps o))).
  { eapply steps_dens; [exact OS|]. rewrite EP. rewrite (load_prof_file _ _ _ _ EX FP) in LP. eapply prof_dens; eauto. }
  assert (AL : Forall2 alike (m_ps (o_mps o)) (i_particles i2)).
  { apply Forall2_of_nth; [exact L1|]. intros k p q P Q. destruct (L2 k p P) as (pos & vel & d & Q' & PP & PV & PD). rewrite Q in Q'. injection Q' as ->.
    rewrite Forall_forall in XP, DN. assert (IP := nth_error_In _ _ P). destruct (XP p IP) as (_ & X1 & X2). apply printed3_eq in PP; [|exact X1]. apply printed3_eq in PV; [|exact X2].
    unfold alike. cbn. subst pos vel d. rewrite (DN p IP). repeat split. assert (SO := steps_sound _ _ _ _ OS SD). destruct SO as (IX & _). apply IX. exact P. }
  rewrite TE in R2.
  exists (i_start i), (i_particles i), m, (i_particles i2), m2. split; [exact M|]. split; [exact C|]. split; [exact R|]. split; [exact AL|]. split; [exact M2|]. split; [|split; [exact C2|exact R2]].
  rewrite L1, <- EP. now apply steps_length with S ko.
Qed.
Lemma run_again real clk fuel setting out fs fs' st o real2 clk2 fuel2 out2 fs2 fs2' st2 sb y s pp cores :
  prog real clk fuel setting out fs = (fs', Ok st) -> In o (si_out st) ->
  fs setting = Some (File sb) -> parse sb = Some y -> @loadSettingYaml F64 as_int as_dbl as_bool dbg (parent setting) y = Ok (s, pp, cores) -> extension pp = lit ".prof" ->
  exact (o_time o) -> Forall printable (m_ps (o_mps o)) -> Z.of_nat (List.length (m_ps (o_mps o))) <= int_max ->
  fs2 setting = fs setting -> fs2 pp = fs' (outputPath out "prof" (o_number o)) ->
  prog real2 clk2 fuel2 setting out2 fs2 = (fs2', Ok st2) ->
  si_time st2 = si_time st /\ si_step st = o_step o + si_step st2 /\ continued (Z.to_nat (si_step st2)) (si_mps st) (si_mps st2) /\
  (0 < si_step st2 -> same_marks (si_mps st) (si_mps st2)).
Proof.
  intros H IO FS PA LS EX XT XP LN F2 F2P H2.
  destruct (again_parts _ _ _ _ _ _ _ _ _ _ _ _ _ _ _ _ _ _ _ _ _ H IO FS PA LS EX XT XP LN F2 F2P H2) as (t0 & ps0 & m & qs & r & M & C & R & AL & M2 & L & C2 & R2).
  destruct (@resume_run F64 fsin fcos M_PI s S real clk fuel t0 ps0 m st o qs r real2 clk2 fuel2 st2 C (made_indexed _ M) (made_rest _ M) R IO AL (made_rest _ M2) C2 R2) as (X1 & X2 & X3 & X4 & _).
  split; [exact X1|]. split; [exact X2|]. split; [exact X3|]. intros PZ. apply X4; [exact PZ|]. apply made_marks; auto.
Qed.
End Again.
