(** * Concrete inputs and runs *)
From Coq Require Import Reals Lra String.
From Verif Require Import FloatFacts FilesCases SimCases SpecR LoaderR.
From Verif Require Export ProgramFacts.
From Verif Require Import StepCasesF.
Open Scope list_scope.
Open Scope Z_scope.

(** scalars read like the particle files read them *)
Definition read_dbl (t : list ascii) : option f64 := let '(x, ok, _) := get_double t in if ok then Some x else None.
Definition read_int (t : list ascii) : option Z := let '(x, ok, _) := get_int t in if ok then Some x else None.
Definition read_bool (t : list ascii) : option bool :=
  if text_eqb t (lit "true") then Some true else if text_eqb t (lit "false") then Some false else None.

Definition sc (s : string) : node := Scalar (lit s).
Definition kv (k v : string) : list ascii * node := (lit k, sc v).
(** a settings file like the shipped ones *)
Definition conf (l0 dt tend period x y method file rN : string) : node := Map
  [ kv "dim" "2"; kv "particleDistance" l0; kv "dt" dt; kv "endTime" tend; kv "outputPeriod" period; kv "cflCondition" "1";
    kv "numPhysicalCores" "4"; (lit "domainMin", Seq [sc "0"; sc "0"; sc "0"]); (lit "domainMax", Seq [sc x; sc y; sc "0"]);
    kv "defaultDensity" "1000"; kv "kinematicViscosity" "1"; (lit "gravity", Seq [sc "0"; sc "-9"; sc "0"]); kv "gravity-norm" "9";
    kv "surfaceDetection-numberDensity-threshold" "1"; kv "surfaceDetection-particleDistribution" "true";
    kv "surfaceDetection-particleDistribution-threshold" "1"; kv "pressureCalculationMethod" method; kv "compressibility" "1";
    kv "relaxationCoefficientForPressure" "1"; kv "soundSpeed" "17"; kv "collisionDistanceRatio" "1"; kv "coefficientOfRestitution" "0";
    kv "radiusRatioForNumberDensity" rN; kv "radiusRatioForGradient" "2"; kv "radiusRatioForLaplacian" "3";
    kv "particlesPath" file ].

(** in exact arithmetic: whole numbers *)
Definition read_R (t : list ascii) : option R := option_map IZR (read_int t).
Definition confR : node := conf "2" "1" "5" "1" "40" "50" "Implicit" "./in.prof" "3".
Definition dirR : path := [lit "home"; lit "case"].
Lemma confR_loads : exists s pp cores, @loadSettingYaml Rnum read_int read_R read_bool true dirR confR = Ok (s, pp, cores) /\
  pp = [lit "home"; lit "case"; lit "in.prof"] /\ cores = 4.
Proof. eexists _, _, _. split; [|split; [|]]; reflexivity. Qed.
Lemma confR_usable : exists s pp cores, @loadSettingYaml Rnum read_int read_R read_bool true dirR confR = Ok (s, pp, cores) /\
  (s_dim s = 2 \/ s_dim s = 3)%Z /\ (0 < s_l0 s)%R /\
  says read_R confR "radiusRatioForNumberDensity" 3%R /\ says read_R confR "radiusRatioForGradient" 2%R /\ says read_R confR "radiusRatioForLaplacian" 3%R /\
  (xMin (s_domain s) <= xMax (s_domain s) /\ yMin (s_domain s) <= yMax (s_domain s) /\ zMin (s_domain s) <= zMax (s_domain s))%R.
Proof.
  eexists _, _, _. split; [reflexivity|]. split; [left; reflexivity|]. split; [simpl; lra|].
  split; [apply req_ok; reflexivity|]. split; [apply req_ok; reflexivity|]. split; [apply req_ok; reflexivity|]. simpl. lra.
Qed.

(** a ratio that is not a number *)
Definition read_nan (t : list ascii) : option f64 := if text_eqb t (lit ".nan") then Some B754_nan else read_dbl t.
Definition conf_nan : node := conf "0.25" "0.001" "0.001" "0.001" "4" "5" "Implicit" "./in.prof" ".nan".
Definition uncovered (o : outcome (@settings F64 * path * Z)) : bool :=
  match o with Ok (s, _, _) => negb (@nle F64 (s_reG s) (s_reMax s)) && fin (s_reG s) | _ => false end.
Lemma nan_uncovered : uncovered (@loadSettingYaml F64 read_int read_nan read_bool true dirR conf_nan) = true.
Proof. vm_compute. reflexivity. Qed.
Lemma nan_case : exists y s pp cores, @loadSettingYaml F64 read_int read_nan read_bool true dirR y = Ok (s, pp, cores) /\
  fin (s_reG s) = true /\ @nle F64 (s_reG s) (s_reMax s) = false.
Proof.
  pose proof nan_uncovered as H. exists conf_nan. destruct (@loadSettingYaml F64 read_int read_nan read_bool true dirR conf_nan) as [[[s pp] cores]|u| |c| |]; try discriminate.
  exists s, pp, cores. unfold uncovered in H. apply andb_true_iff in H as (H1 & H2). apply negb_true_iff in H1. auto.
Qed.

(** ** A small file system *)
Definition confF (method file : string) : node := conf "0.25" "0.001" "0.001" "0.001" "4" "5" method file "3".
Definition parseF (b : list ascii) : option node :=
  if text_eqb b (lit "good") then Some (confF "Explicit" "./in.prof")
  else if text_eqb b (lit "typo") then Some (confF "Explicitly" "./in.prof")
  else if text_eqb b (lit "text") then Some (confF "Explicit" "../case/in.txt")
  else None.
Definition particlesF : list ascii := lines_text
  [lit "0"; lit "3"; lit "1 1 1 0 0 0 0"; lit "1 1.25 1 0 0 0 0"; lit "2 1 0.75 0 0 0 0"].
Definition case_dir : path := [lit "home"; lit "case"].
Definition out_dir : path := [lit "home"; lit "out"].
Definition setting_path : path := case_dir ++ [lit "settings.yml"].
Definition particle_path : path := case_dir ++ [lit "in.prof"].
Fixpoint disk (l : list (path * item)) : filesystem :=
  match l with
  | [] => fun _ => None
  | (p, e) :: r => put (disk r) p e
  end.
Definition world (setting : string) (more : list (path * item)) : filesystem :=
  disk ([([], Folder); ([lit "home"], Folder); (case_dir, Folder); (out_dir, Folder);
         (setting_path, File (lit setting)); (particle_path, File particlesF)] ++ more).
Definition start := program parseF read_int read_dbl read_bool read_int read_dbl fid fid c20 false false solver0 0 tickF 10 setting_path out_dir.
Definition completed (r : filesystem * outcome (@sim F64)) (n : nat) : bool :=
  match snd r with Ok st => Nat.eqb (List.length (si_out st)) n | _ => false end.
Definition exits (r : filesystem * outcome (@sim F64)) : bool := match snd r with Exit c => c =? -1 | _ => false end.
Definition is_file (fs : filesystem) (p : path) (b : list ascii) : bool := match fs p with Some (File b') => text_eqb b b' | _ => false end.

Lemma good_runs : completed (start (world "good" [])) 2 = true.
Proof. vm_compute. reflexivity. Qed.
(** an earlier result in the output directory *)
Definition kept : list (path * item) :=
  [(out_dir ++ [lit "csv"], Folder); (outputPath out_dir "csv" 1, File (lit "results of last week"))].
Lemma kept_lost : let r := start (world "good" kept) in
  completed r 2 && is_file (world "good" kept) (outputPath out_dir "csv" 1) (lit "results of last week")
  && negb (is_file (fst r) (outputPath out_dir "csv" 1) (lit "results of last week")) = true.
Proof. vm_compute. reflexivity. Qed.

(** a misspelt pressure method: exit(-1), but the copies stay, and the corrected case is
    refused too *)
Definition spoilt : filesystem := fst (start (world "typo" [])).
Definition corrected_case (fs : filesystem) : filesystem := put fs setting_path (File (lit "good")).
Lemma typo_exits : exits (start (world "typo" [])) && is_file spoilt (out_dir ++ [lit "settings.yml"]) (lit "typo") = true.
Proof. vm_compute. reflexivity. Qed.
Lemma typo_corrected : exits (start (corrected_case spoilt)) && completed (start (corrected_case (world "typo" []))) 2 = true.
Proof. vm_compute. reflexivity. Qed.

Lemma completed_iff r n : completed r n = true -> exists fs' st, r = (fs', Ok st) /\ List.length (si_out st) = n.
Proof. unfold completed. destruct r as [fs' [st|u| |c| |]]; cbn [snd]; try discriminate. intros H. apply Nat.eqb_eq in H. eauto. Qed.
Lemma good_case : exists fs' st, start (world "good" []) = (fs', Ok st) /\ List.length (si_out st) = 2%nat.
Proof. exact (completed_iff _ _ good_runs). Qed.
Lemma is_file_iff fs p b : is_file fs p b = true <-> fs p = Some (File b).
Proof. unfold is_file. destruct (fs p) as [[b'|]|]; [rewrite CsvFacts.text_eqb_iff|..]; split; congruence. Qed.
Lemma lost_gen fs n p b : (let r := start fs in completed r n && is_file fs p b && negb (is_file (fst r) p b) = true) ->
  exists fs' st, start fs = (fs', Ok st) /\ fs p = Some (File b) /\ fs' p <> Some (File b).
Proof.
  cbv zeta. generalize (start fs) as r. intros r H. apply andb_true_iff in H as (H & H3). apply andb_true_iff in H as (H1 & H2).
  apply completed_iff in H1 as (fs' & st & -> & _). exists fs', st. split; [reflexivity|]. split; [apply is_file_iff, H2|].
  intros E. apply is_file_iff in E. cbn [fst] in H3. rewrite E in H3. discriminate.
Qed.
Lemma lost_case : exists fs fs' st p b, start fs = (fs', Ok st) /\ fs p = Some (File b) /\ fs' p <> Some (File b).
Proof. destruct (lost_gen _ _ _ _ kept_lost) as (fs' & st & H). eexists _, fs', st, _, _. exact H. Qed.
Lemma completed_ok r n : completed r n = true -> exists st, snd r = Ok st.
Proof. unfold completed. destruct (snd r) as [st|u| |c| |]; try discriminate. eauto. Qed.
Lemma exits_iff r : exits r = true -> exists fs', r = (fs', Exit (-1)).
Proof. unfold exits. destruct r as [fs' [a|u| |c| |]]; simpl; try discriminate. intros H. apply Z.eqb_eq in H. subst. eauto. Qed.
Lemma typo_case : exists fs fs' p b, start fs = (fs', Exit (-1)) /\ fs p = None /\ fs' p = Some (File b) /\
  snd (start (corrected_case fs')) = Exit (-1) /\ exists st, snd (start (corrected_case fs)) = Ok st.
Proof.
  pose proof typo_exits as H. apply andb_true_iff in H as (H1 & H2). apply exits_iff in H1 as (fs' & E).
  pose proof typo_corrected as K. apply andb_true_iff in K as (K1 & K2). apply exits_iff in K1 as (f2 & E2).
  exists (world "typo" []), fs', (out_dir ++ [lit "settings.yml"]), (lit "typo"). split; [exact E|].
  assert (Sp : spoilt = fs') by (unfold spoilt; rewrite E; reflexivity). rewrite Sp in *.
  split; [reflexivity|]. split; [apply is_file_iff, H2|]. split; [rewrite E2; reflexivity|].
  exact (completed_ok _ _ K2).
Qed.
(** a particle file of unknown format *)
Lemma text_case : exists y s pp cores, parseF (lit "text") = Some y /\ @loadSettingYaml F64 read_int read_dbl read_bool false case_dir y = Ok (s, pp, cores) /\
  ~ In (extension pp) [lit ".csv"; lit ".prof"; lit ".vtu"].
Proof.
  eexists _, _, _, _. split; [reflexivity|]. split; [reflexivity|]. intros H.
  repeat (destruct H as [H|H]; [vm_compute in H; discriminate|]). exact H.
Qed.

(** ** Cases of the theorems *)
Definition loads (y : node) (fs : filesystem) : bool :=
  match @loadSettingYaml F64 read_int read_dbl read_bool false (parent setting_path) y with
  | Ok (s, pp, _) => match loadParticles read_int read_dbl false (s_rho0 s) fs pp with Ok (t, ps) => true | _ => false end
  | _ => false
  end.
Lemma loads_ok y fs : loads y fs = true -> exists s pp cores t ps,
  @loadSettingYaml F64 read_int read_dbl read_bool false (parent setting_path) y = Ok (s, pp, cores) /\
  loadParticles read_int read_dbl false (s_rho0 s) fs pp = Ok (t, ps).
Proof.
  unfold loads. destruct (@loadSettingYaml F64 read_int read_dbl read_bool false (parent setting_path) y) as [[[s pp] cores]|u| |c| |]; try discriminate.
  destruct (loadParticles read_int read_dbl false (s_rho0 s) fs pp) as [[t ps]|u| |c| |] eqn:P; try discriminate.
  intros _. exists s, pp, cores, t, ps. split; [reflexivity|exact P].
Qed.
Lemma pp_case y s pp cores m : y = confF m "./in.prof" -> @loadSettingYaml F64 read_int read_dbl read_bool false (parent setting_path) y = Ok (s, pp, cores) -> pp = particle_path.
Proof.
  intros -> L. apply (@settings_loaded F64) in L as (_ & L & _). unfold settings_in in L. do 28 destruct L as (_ & L).
  destruct L as ((tx & [T|[T _]] & D) & _); apply resolve_iff in D; subst pp; apply at_key_some in T; [injection T as <-; reflexivity|discriminate T].
Qed.
(** a path upwards *)
Lemma up_path : denotes (dirR ++ [lit "sub"]) (lit "../././in//x.prof") (dirR ++ [lit "in"; lit "x.prof"]) /\ denotes dirR (lit "/x.prof") [lit "x.prof"].
Proof. split; apply resolve_iff; reflexivity. Qed.
Lemma target_case : let fs := world "good" [(out_dir ++ [lit "in.prof"], File [])] in
  exists y s pp cores t ps, fs setting_path = Some (File (lit "good")) /\ parseF (lit "good") = Some y /\
  @loadSettingYaml F64 read_int read_dbl read_bool false (parent setting_path) y = Ok (s, pp, cores) /\
  loadParticles read_int read_dbl false (s_rho0 s) fs pp = Ok (t, ps) /\ fs out_dir = Some Folder /\ fs (out_dir ++ [filename pp]) <> None.
Proof.
  cbv zeta. set (fs := world "good" _).
  assert (H : loads (confF "Explicit" "./in.prof") fs = true) by (vm_compute; reflexivity).
  apply loads_ok in H as (s & pp & cores & t & ps & L & P).
  exists (confF "Explicit" "./in.prof"), s, pp, cores, t, ps. split; [reflexivity|]. split; [reflexivity|]. split; [exact L|]. split; [exact P|]. split; [reflexivity|].
  rewrite (pp_case _ _ _ _ "Explicit" eq_refl L). discriminate.
Qed.

Lemma disk_none l p : ~ In p (map fst l) -> disk l p = None.
Proof.
  induction l as [|[q e] l IH]; intros H; [reflexivity|]. cbn [disk]. rewrite put_other; [apply IH|]; intros E; apply H; simpl; auto.
Qed.
Lemma world_room setting : room out_dir (world setting []).
Proof.
  split; [reflexivity|]. intros kind I. split.
  - left. simpl in I. destruct I as [<-|[<-|[<-|[]]]]; reflexivity.
  - intros k _. unfold world. rewrite disk_none; [discriminate|]. intros J. apply (in_map (@List.length _)) in J. rewrite map_map in J.
    replace (List.length (outputPath out_dir kind k)) with 4%nat in J by reflexivity. simpl in J. lia.
Qed.
Lemma room_put fs p b : room out_dir fs -> p <> out_dir -> (forall kind, In kind kinds -> p <> out_dir ++ [lit kind]) -> room out_dir (put fs p (File b)).
Proof.
  intros (O & R) N1 N2. split; [rewrite put_other; auto|]. intros kind I. destruct (R kind I) as (A & B). split.
  - rewrite put_other by (intros E; exact (N2 kind I (eq_sym E))). exact A.
  - intros k P. destruct (path_dec (outputPath out_dir kind k) p) as [<-|D]; [rewrite put_same; discriminate|rewrite put_other by exact D; apply B, P].
Qed.

Definition input_ok (r : filesystem * outcome input) : bool := match snd r with Ok i => String.eqb (s_method (i_settings i)) "Explicitly" | _ => false end.
Lemma input_ok_iff r : input_ok r = true -> exists f1 i, r = (f1, Ok i) /\ s_method (i_settings i) = "Explicitly"%string.
Proof. unfold input_ok. destruct r as [f1 [i|u| |c| |]]; cbn [snd]; try discriminate. intros H. exists f1, i. split; [reflexivity|]. apply String.eqb_eq, H. Qed.
Lemma typo_loads : input_ok (load parseF read_int read_dbl read_bool read_int read_dbl false setting_path out_dir (world "typo" [])) = true.
Proof. vm_compute. reflexivity. Qed.
Lemma unknown_case : exists f1 i, load parseF read_int read_dbl read_bool read_int read_dbl false setting_path out_dir (world "typo" []) = (f1, Ok i) /\
  s_method (i_settings i) = "Explicitly"%string /\ room out_dir f1.
Proof.
  destruct (input_ok_iff _ typo_loads) as (f1 & i & L & M). exists f1, i. split; [exact L|]. split; [exact M|].
  apply load_ok in L as (sb & y & pp & cores & pb & S & P & L & _ & _ & _ & _ & _ & _ & ->).
  injection S as <-. injection P as <-. apply (pp_case _ _ _ _ "Explicitly" eq_refl) in L. subst pp.
  apply room_put; [apply room_put; [apply world_room|discriminate|]|discriminate|]; intros kind [<-|[<-|[<-|[]]]]; discriminate.
Qed.

Definition fine3 (v : @vec F64) : bool := is_finite (vx v : f64) && is_finite (vy v : f64) && is_finite (vz v : f64).
Definition fine (p : Files.particle) : bool := in_int (p_type p) && in_int (p_fluidType p) && fine3 (p_pos p) && fine3 (p_vel p).
Definition fine_output (o : @output F64) : bool := is_finite (o_time o : f64) && forallb fine (m_ps (o_mps o)) && Nat.eqb (List.length (m_ps (o_mps o))) 3.
Lemma fine3_iff v : fine3 v = true -> all3 finite v.
Proof. unfold fine3. intros H. apply andb_true_iff in H as (H & C). apply andb_true_iff in H as (A & B). split; [exact A|split; [exact B|exact C]]. Qed.
Lemma fine_writable ps : forallb fine ps = true -> Forall writable ps.
Proof.
  intros H. rewrite forallb_forall in H. apply Forall_forall. intros p I. specialize (H p I). unfold fine in H.
  apply andb_true_iff in H as (H & D). apply andb_true_iff in H as (H & C). apply andb_true_iff in H as (A & B).
  split; [exact A|]. split; [exact B|]. split; apply fine3_iff; assumption.
Qed.
Definition restartable (r : filesystem * outcome (@sim F64)) : bool :=
  match snd r with Ok st => match nth_error (si_out st) 1 with Some o => fine_output o | None => false end | _ => false end.
Lemma good_restartable : restartable (start (world "good" [])) = true.
Proof. vm_compute. reflexivity. Qed.
Lemma restartable_iff r : restartable r = true -> exists fs' st o, r = (fs', Ok st) /\ nth_error (si_out st) 1 = Some o /\ finite (o_time o) /\
  Forall writable (m_ps (o_mps o)) /\ List.length (m_ps (o_mps o)) = 3%nat.
Proof.
  unfold restartable. destruct r as [fs' [st|u| |c| |]]; cbn [snd]; try discriminate.
  destruct (nth_error (si_out st) 1) as [o|] eqn:E; [|discriminate]. intros H. exists fs', st, o. split; [reflexivity|]. split; [exact E|].
  unfold fine_output in H. apply andb_true_iff in H as (H & C). apply andb_true_iff in H as (A & B). apply Nat.eqb_eq in C.
  split; [exact A|]. split; [apply fine_writable, B|exact C].
Qed.
Lemma restart_case : exists fs' st o, start (world "good" []) = (fs', Ok st) /\ nth_error (si_out st) 1 = Some o /\ finite (o_time o) /\
  Forall writable (m_ps (o_mps o)) /\ List.length (m_ps (o_mps o)) = 3%nat.
Proof. exact (restartable_iff _ good_restartable). Qed.
Lemma completes_gen fs : (exists fs' st, start fs = (fs', Ok st)) -> fs setting_path = Some (File (lit "good")) -> fs particle_path = Some (File particlesF) ->
  room out_dir fs -> fs (out_dir ++ [filename setting_path]) = None -> fs (out_dir ++ [filename particle_path]) = None ->
  exists y s pp cores t ps m st,
  fs setting_path = Some (File (lit "good")) /\ parseF (lit "good") = Some y /\
  @loadSettingYaml F64 read_int read_dbl read_bool false (parent setting_path) y = Ok (s, pp, cores) /\
  loadParticles read_int read_dbl false (s_rho0 s) fs pp = Ok (t, ps) /\ fs pp = Some (File particlesF) /\
  @factoryCreate F64 fid fid c20 s ps = Ok m /\ @run F64 solver0 0 tickF 10 (@newSim F64 t s m) = Ok st /\ Forall (vtu_fine false (s_vtkBinary s)) (si_out st) /\
  room out_dir fs /\ fs (out_dir ++ [filename setting_path]) = None /\ fs (out_dir ++ [filename pp]) = None /\ filename setting_path <> filename pp /\
  ~ In (filename setting_path) (map lit kinds) /\ ~ In (filename pp) (map lit kinds).
Proof.
  intros (fs' & st & E) F1 F2 R0 N1 N2. unfold start in E.
  apply program_ok in E as (sb & y & pp & cores & pb & i & m & S & P & L & Q & B & M & R & _ & _ & W).
  rewrite F1 in S. apply (f_equal (fun e => match e with Some (File b) => b | _ => [] end)) in S. cbv beta iota in S. subst sb.
  assert (Y : y = confF "Explicit" "./in.prof") by (apply (f_equal (fun e => match e with Some b => b | _ => Null end)) in P; exact (eq_sym P)).
  pose proof (pp_case _ _ _ _ "Explicit" Y L) as E. subst pp.
  exists y, (i_settings i), particle_path, cores, (i_start i), (i_particles i), m, st.
  split; [exact F1|]. split; [exact P|]. split; [exact L|]. split; [exact Q|]. split; [exact F2|]. split; [exact M|]. split; [exact R|].
  split; [eapply Forall_impl; [|exact W]; intros o (_ & (b & V & _) & _); exists b; exact V|].
  split; [exact R0|]. split; [exact N1|]. split; [exact N2|]. split; [discriminate|].
  split; intros [H|[H|[H|[]]]]; discriminate H.
Qed.
Lemma completes_case : let fs := world "good" [] in exists y s pp cores t ps m st,
  fs setting_path = Some (File (lit "good")) /\ parseF (lit "good") = Some y /\
  @loadSettingYaml F64 read_int read_dbl read_bool false (parent setting_path) y = Ok (s, pp, cores) /\
  loadParticles read_int read_dbl false (s_rho0 s) fs pp = Ok (t, ps) /\ fs pp = Some (File particlesF) /\
  @factoryCreate F64 fid fid c20 s ps = Ok m /\ @run F64 solver0 0 tickF 10 (@newSim F64 t s m) = Ok st /\ Forall (vtu_fine false (s_vtkBinary s)) (si_out st) /\
  room out_dir fs /\ fs (out_dir ++ [filename setting_path]) = None /\ fs (out_dir ++ [filename pp]) = None /\ filename setting_path <> filename pp /\
  ~ In (filename setting_path) (map lit kinds) /\ ~ In (filename pp) (map lit kinds).
Proof.
  cbv zeta. apply completes_gen; [|reflexivity|reflexivity|apply world_room|reflexivity|reflexivity].
  destruct good_case as (fs' & st & E & _). exists fs', st. exact E.
Qed.
