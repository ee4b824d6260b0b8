(** * The cases in /repo/input load, and how their runs can end *)
From Coq Require Import Reals Lra String.
From Flocq Require Import Core.Core IEEE754.BinarySingleNaN.
From Verif Require Import FloatFacts SimF TotalR GeneratorCases StepCasesF ReportF.
From Verif Require Export SpecShipped ProgramEnds.
Open Scope list_scope.
Open Scope Z_scope.
#[local] Remove Hints Rnum : typeclass_instances.

(** ** Reading settings *)
Section Read.
Variable parse : list ascii -> option node.
Variable as_int : list ascii -> option Z.
Variable as_dbl : list ascii -> option f64.
Variable as_bool : list ascii -> option bool.
Hypothesis RP : reads_plainly parse as_int as_dbl as_bool.
Variable l : list (list ascii * node).

Definition dbl_is (t : list ascii) (v : f64) : bool := let '(x, ok, r) := get_double t in f64_eqb x v && ok && match r with [] => true | _ => false end.
Lemma dbl_is_ok t v : dbl_is t v = true -> as_dbl t = Some v.
Proof.
  destruct RP as (_ & _ & D & _). unfold dbl_is. destruct (get_double t) as [[x ok] r] eqn:E. intros H. apply andb_true_iff in H as [H R]. apply andb_true_iff in H as [H K].
  apply f64_eqb_eq in H. subst x ok. destruct r; [|discriminate]. now apply D.
Qed.
Definition dbl_of (v : f64) (t : list ascii) : bool := dbl_is t v.
Definition scalar_at (k : string) (f : list ascii -> bool) : bool := match assoc (lit k) l with Some (Scalar t) => f t | _ => false end.
Definition item_at (k : string) (i : nat) (f : list ascii -> bool) : bool :=
  match assoc (lit k) l with Some (Seq s) => match nth_error s i with Some (Scalar t) => f t | _ => false end | _ => false end.
Lemma scalar_ok {A} (conv : list ascii -> option A) k f v : scalar_at k f = true -> (forall t, f t = true -> conv t = Some v) -> @req A conv (Map l) k = Ok v.
Proof.
  unfold scalar_at, req. intros H C. cbn [at_key bind]. destruct (assoc (lit k) l) as [[|t| |]|]; try discriminate. cbn [as_]. rewrite (C t H). reflexivity.
Qed.
Lemma scalar_opt {A} (conv : list ascii -> option A) k f v d : scalar_at k f = true -> (forall t, f t = true -> conv t = Some v) -> @opt A conv (Map l) k d = Ok v.
Proof.
  unfold scalar_at, opt. intros H C. cbn [at_key bind]. destruct (assoc (lit k) l) as [[|t| |]|]; try discriminate. cbn [as_]. rewrite (C t H). reflexivity.
Qed.
Lemma req_dbl k v : scalar_at k (dbl_of v) = true -> @req (@num F64) as_dbl (Map l) k = Ok v.
Proof. intros H. apply (scalar_ok _ _ _ _ H). intros t. apply dbl_is_ok. Qed.
Lemma opt_dbl k v d : scalar_at k (dbl_of v) = true -> @opt (@num F64) as_dbl (Map l) k d = Ok v.
Proof. intros H. apply (scalar_opt _ _ _ _ _ H). intros t. apply dbl_is_ok. Qed.
Definition int_is (z : Z) (t : list ascii) : bool := (int_min <=? z) && (z <=? int_max) && text_eqb t (showZ z).
Lemma req_int k z : scalar_at k (int_is z) = true -> req as_int (Map l) k = Ok z.
Proof.
  intros H. apply (scalar_ok _ _ _ _ H). intros t E. destruct RP as (_ & I & _). unfold int_is in E. apply andb_true_iff in E as [E T]. apply andb_true_iff in E as [E1 E2].
  apply CsvFacts.text_eqb_iff in T. subst t. apply I. apply Z.leb_le in E1, E2. auto.
Qed.
Definition word_is (s : string) (t : list ascii) : bool := text_eqb t (lit s).
Lemma true_ok t : word_is "true" t = true -> as_bool t = Some true.
Proof. intros E. apply CsvFacts.text_eqb_iff in E. subst t. apply RP. Qed.
Lemma req_true k : scalar_at k (word_is "true") = true -> req as_bool (Map l) k = Ok true.
Proof. intros H. apply (scalar_ok _ _ _ _ H). exact true_ok. Qed.
Lemma opt_true k d : scalar_at k (word_is "true") = true -> opt as_bool (Map l) k d = Ok true.
Proof. intros H. apply (scalar_opt _ _ _ _ _ H). exact true_ok. Qed.
Lemma req_text k s : scalar_at k (word_is s) = true -> req_string (Map l) k = Ok (lit s).
Proof.
  unfold scalar_at, req_string. cbn [at_key bind]. destruct (assoc (lit k) l) as [[|t| |]|]; try discriminate. intros E. apply CsvFacts.text_eqb_iff in E. subst t. reflexivity.
Qed.
Lemma req_item k i v : item_at k i (dbl_of v) = true -> @req_at (@num F64) as_dbl (Map l) k i = Ok v.
Proof.
  unfold item_at, req_at. cbn [at_key bind]. destruct (assoc (lit k) l) as [[| |s|]|]; try discriminate. cbn [at_index bind].
  destruct (nth_error s i) as [[|t| |]|]; try discriminate. intros H. cbn [as_]. rewrite (dbl_is_ok _ _ H). reflexivity.
Qed.

Definition shipped_b (l0 dt tend period nu x0 x1 y0 y1 : f64) : bool :=
  let zero := @nofZ F64 0 in
  let d k v := scalar_at k (dbl_of v) in
  let v k i v := item_at k i (dbl_of v) in
  forallb (fun b : bool => b)
  [scalar_at "dim" (int_is 2); d "particleDistance" l0; d "dt" dt; d "endTime" tend; d "outputPeriod" period; d "cflCondition" (literal 3 10);
   scalar_at "numPhysicalCores" (int_is 4); d "defaultDensity" (literal 1000 1); d "kinematicViscosity" nu; scalar_at "xyz-input" (word_is "true");
   v "gravity" 0%nat zero; v "gravity" 1%nat (literal (-98) 10); v "gravity" 2%nat zero; d "gravity-norm" (literal 98 10); d "gravity-angle" zero;
   d "surfaceDetection-numberDensity-threshold" (literal 97 100); scalar_at "surfaceDetection-particleDistribution" (word_is "true");
   d "surfaceDetection-particleDistribution-threshold" (literal 1 1); scalar_at "pressureCalculationMethod" (word_is "Implicit");
   d "compressibility" (literal 45 100000000000); d "relaxationCoefficientForPressure" (literal 2 10); d "soundSpeed" (literal 171 10);
   d "collisionDistanceRatio" (literal 5 10); d "coefficientOfRestitution" (literal 2 10); d "radiusRatioForNumberDensity" (literal 31 10);
   d "radiusRatioForGradient" (literal 21 10); d "radiusRatioForLaplacian" (literal 31 10);
   v "domainMin" 0%nat x0; v "domainMax" 0%nat x1; v "domainMin" 1%nat y0; v "domainMax" 1%nat y1; v "domainMin" 2%nat zero; v "domainMax" 2%nat zero;
   scalar_at "particlesPath" (word_is "./input.prof"); scalar_at "outputVtkInBinary" (word_is "true")].
Lemma shipped_loads dbg dir l0 dt tend period nu x0 x1 y0 y1 : shipped_b l0 dt tend period nu x0 x1 y0 y1 = true ->
  max3 (@nmul F64 (literal 31 10) l0) (@nmul F64 (literal 21 10) l0) (@nmul F64 (literal 31 10) l0) = @nmul F64 (literal 31 10) l0 ->
  loadSettingYaml as_int as_dbl as_bool dbg dir (Map l) =
    Ok (shipped_settings dbg l0 dt tend period nu x0 x1 y0 y1 (path_text (dir ++ [lit "input.prof"])), dir ++ [lit "input.prof"], 4).
Proof.
  intros H M. unfold shipped_b in H. cbn [forallb] in H.
  repeat match goal with H : _ && _ = true |- _ => apply andb_true_iff in H as [?B H] end.
  assert (RS : resolve dir (lit "./input.prof") = dir ++ [lit "input.prof"]) by reflexivity.
  unfold loadSettingYaml.
  repeat first
    [ match goal with B : scalar_at ?k (dbl_of ?v) = true |- context [@req (@num F64) as_dbl (Map l) ?k] => rewrite (req_dbl k v B); cbn [bind] end
    | match goal with B : scalar_at ?k (int_is ?v) = true |- context [req as_int (Map l) ?k] => rewrite (req_int k v B); cbn [bind] end
    | match goal with B : scalar_at ?k (dbl_of ?v) = true |- context [@opt (@num F64) as_dbl (Map l) ?k ?d] => rewrite (opt_dbl k v d B); cbn [bind] end
    | match goal with B : scalar_at ?k (word_is "true") = true |- context [opt as_bool (Map l) ?k ?d] => rewrite (opt_true k d B); cbn [bind] end
    | match goal with B : scalar_at ?k (word_is "true") = true |- context [req as_bool (Map l) ?k] => rewrite (req_true k B); cbn [bind] end
    | match goal with B : scalar_at ?k (word_is ?s) = true |- context [req_string (Map l) ?k] => rewrite (req_text k s B); cbn [bind] end
    | match goal with B : item_at ?k ?i (dbl_of ?v) = true |- context [@req_at (@num F64) as_dbl (Map l) ?k ?i] => rewrite (req_item k i v B); cbn [bind] end ].
  cbn zeta. rewrite RS, M. reflexivity.
Qed.
End Read.

Definition entries_of (o : option node) : list (list ascii * node) := match o with Some (Map l) => l | _ => [] end.
Definition dam_entries : list (list ascii * node) := Eval vm_compute in entries_of (flat_yaml (joined_lines dambreak_yml)).
Definition hyd_entries : list (list ascii * node) := Eval vm_compute in entries_of (flat_yaml (joined_lines hydrostatic_yml)).
Lemma dam_yaml : flat_yaml (joined_lines dambreak_yml) = Some (Map dam_entries).
Proof. vm_compute. reflexivity. Qed.
Lemma hyd_yaml : flat_yaml (joined_lines hydrostatic_yml) = Some (Map hyd_entries).
Proof. vm_compute. reflexivity. Qed.
Lemma same (x y : f64) : f64_eqb x y = true -> x = y.
Proof. apply f64_eqb_eq. Qed.
Lemma dam_read parse ai ad ab dbg dir : reads_plainly parse ai ad ab ->
  parse (joined_lines dambreak_yml) = Some (Map dam_entries) /\
  loadSettingYaml ai ad ab dbg dir (Map dam_entries) = Ok (dam_settings dbg (path_text (dir ++ [lit "input.prof"])), dir ++ [lit "input.prof"], 4).
Proof.
  intros RP. split; [apply RP; exact dam_yaml|]. apply (shipped_loads parse _ _ _ RP); [vm_compute; reflexivity|apply same; vm_compute; reflexivity].
Qed.
Lemma hyd_read parse ai ad ab dbg dir : reads_plainly parse ai ad ab ->
  parse (joined_lines hydrostatic_yml) = Some (Map hyd_entries) /\
  loadSettingYaml ai ad ab dbg dir (Map hyd_entries) = Ok (hyd_settings dbg (path_text (dir ++ [lit "input.prof"])), dir ++ [lit "input.prof"], 4).
Proof.
  intros RP. split; [apply RP; exact hyd_yaml|]. apply (shipped_loads parse _ _ _ RP); [vm_compute; reflexivity|apply same; vm_compute; reflexivity].
Qed.

(** ** Spacing *)
Lemma grid_far (h : R) (j k : Z) : (0 < h)%R -> j <> k -> (h <= Rabs (IZR j * h - IZR k * h))%R.
Proof.
  intros P N. replace (IZR j * h - IZR k * h)%R with (IZR (j - k) * h)%R by (rewrite minus_IZR; ring).
  rewrite Rabs_mult, <- abs_IZR, (Rabs_pos_eq h) by lra. assert (1 <= IZR (Z.abs (j - k)))%R by (apply IZR_le; lia). nra.
Qed.
Lemma multiple_far h x y : (0 < h)%R -> multiple h x -> multiple h y -> x <> y -> (h <= Rabs (x - y))%R.
Proof. intros P (j & ->) (k & ->) N. apply grid_far; [exact P|congruence]. Qed.
Lemma midpoint_far h x y : (0 < h)%R -> midpoint h x -> midpoint h y -> x <> y -> (h <= Rabs (x - y))%R.
Proof.
  intros P (j & ->) (k & ->) N. replace ((IZR j + 1 / 2) * h - (IZR k + 1 / 2) * h)%R with (IZR j * h - IZR k * h)%R by field. apply grid_far; [exact P|congruence].
Qed.
Lemma sqrt_reach (a b c d : R) : (d <= Rabs a \/ d <= Rabs b -> d <= sqrt (a ^ 2 + b ^ 2 + c ^ 2))%R.
Proof.
  intros H. assert (A : forall x, (0 <= x ^ 2)%R) by (intros; apply pow2_ge_0).
  destruct H as [H|H]; (eapply Rle_trans; [exact H|]); rewrite <- sqrt_Rsqr_abs; apply sqrt_le_1_alt; unfold Rsqr; pose proof (A a); pose proof (A b); pose proof (A c); simpl in *; lra.
Qed.
Lemma nth_close : forall ps qs, Forall2 close ps qs -> forall i q, nth_error qs i = Some q -> exists p, nth_error ps i = Some p /\ close p q.
Proof. induction 1; intros [|i] r H1; cbn in H1; [discriminate|discriminate|inv H1; exists x; auto|]. apply IHForall2 in H1. exact H1. Qed.
Lemma fills_spaced (grid : R -> Prop) region h (ps : list (@Types.particle Rnum)) qs :
  (forall x y, grid x -> grid y -> x <> y -> (h <= Rabs (x - y))%R) -> fills grid region ps -> Forall2 close ps qs -> spaced (h - 2 / 10 ^ 15) qs.
Proof.
  intros G (ND & _ & _ & F) C i j p q N P Q. destruct (nth_close _ _ C _ _ P) as (p0 & P0 & CP). destruct (nth_close _ _ C _ _ Q) as (q0 & Q0 & CQ).
  assert (V : p_pos p0 <> p_pos q0).
  { intros E. rewrite NoDup_nth_error in ND. apply N, ND; [rewrite map_length; apply nth_error_Some; congruence|].
    rewrite (map_nth_error p_pos _ _ P0), (map_nth_error p_pos _ _ Q0). now f_equal. }
  assert (W : forall r, In r ps -> (vz (p_pos r) : R) = 0%R /\ grid (vx (p_pos r)) /\ grid (vy (p_pos r))).
  { intros r I. destruct (F (p_type r) (vx (p_pos r)) (vy (p_pos r)) (vz (p_pos r))) as (F1 & _). destruct F1 as (F1 & F2 & F3 & _); [|auto].
    exists r. split; [exact I|]. split; [reflexivity|]. now destruct (p_pos r). }
  destruct (W p0 (nth_error_In _ _ P0)) as (Z1 & X1 & Y1). destruct (W q0 (nth_error_In _ _ Q0)) as (Z2 & X2 & Y2).
  destruct CP as (_ & _ & _ & (_ & DX1) & (_ & DY1) & _). destruct CQ as (_ & _ & _ & (_ & DX2) & (_ & DY2) & _).
  apply sqrt_reach.
  destruct (p_pos p0) as [x1 y1 z1], (p_pos q0) as [x2 y2 z2]. cbn [vx vy vz] in *. change (@num Rnum) with R in *.
  assert (FAR : forall a b a' b' : R, (Rabs (a' - a) <= / 10 ^ 15 -> Rabs (b' - b) <= / 10 ^ 15 -> h <= Rabs (a - b) -> h - 2 / 10 ^ 15 <= Rabs (a' - b'))%R).
  { clear. intros a b a' b' A B H. set (e := (/ 10 ^ 15)%R) in *. replace (2 / 10 ^ 15)%R with (2 * e)%R by (unfold e; field).
    pose proof (Rabs_triang (a' - b') (- (a' - a) + (b' - b))) as T. replace (a' - b' + (- (a' - a) + (b' - b)))%R with (a - b)%R in T by ring.
    pose proof (Rabs_triang (- (a' - a)) (b' - b)) as T2. rewrite Rabs_Ropp in T2. lra. }
  destruct (Req_dec x1 x2) as [Ex|Ex].
  - destruct (Req_dec y1 y2) as [Ey|Ey]; [exfalso; apply V; subst; reflexivity|]. right. apply (FAR y1 y2); auto.
  - left. apply (FAR x1 x2); auto.
Qed.

(** ** The machine *)
Definition is_ok {A} (o : outcome A) : bool := match o with Ok _ => true | _ => false end.
Lemma is_ok_ok {A} (o : outcome A) : is_ok o = true -> exists x, o = Ok x.
Proof. destruct o; try discriminate. eauto. Qed.
Lemma factory_ok fsin fcos pi (s : @settings F64) ps qx qy qz :
  s_method s = "Implicit"%string ->
  (forall r, r = s_reN s \/ r = s_reG s \/ r = s_reL s -> is_ok (@newRefValues F64 (s_asserts s) (s_dim s) (s_l0 s) r) = true) ->
  to_int (@ndiv F64 (xLength (s_domain s)) (s_reMax s)) = Ok qx -> to_int (@ndiv F64 (yLength (s_domain s)) (s_reMax s)) = Ok qy -> to_int (@ndiv F64 (zLength (s_domain s)) (s_reMax s)) = Ok qz ->
  ((0 <= qx) /\ (0 <= qy) /\ (0 <= qz) /\ (qx + 3) * (qy + 3) * (qz + 3) <= int_max) -> exists m, factoryCreate fsin fcos pi s ps = Ok m.
Proof.
  intros M R X Y Z (X0 & Y0 & Z0 & B). destruct (is_ok_ok _ (R (s_reN s) (or_introl eq_refl))) as (rN & EN). destruct (is_ok_ok _ (R (s_reG s) (or_intror (or_introl eq_refl)))) as (rG & EG).
  destruct (is_ok_ok _ (R (s_reL s) (or_intror (or_intror eq_refl)))) as (rL & EL).
  destruct (newSearcher_total (s_reMax s) (s_domain s) (List.length ps) qx qy qz X Y Z (fun _ _ _ => B) X0 Y0 Z0) as (ns & NS).
  unfold factoryCreate, factoryDetector, factoryCalculator, newMPS. rewrite M, EN, EL. cbn [bind String.eqb Ascii.eqb Bool.eqb]. rewrite NS, EG. cbn [bind]. eauto.
Qed.
Lemma close_sound ps qs : numbered ps -> Forall2 close ps qs -> indexed qs /\ Spec.at_rest qs.
Proof.
  intros NB C. split.
  - intros i q H. destruct (nth_close _ _ C _ _ H) as (p & P & (E & _)). rewrite E. now apply NB.
  - intros q I. apply In_nth_error in I as (i & I). destruct (nth_close _ _ C _ _ I) as (p & _ & (_ & _ & A & _)). rewrite A. reflexivity.
Qed.

(** ** Loading *)
Section Case.
Variable parse : list ascii -> option node.
Variable as_int : list ascii -> option Z.
Variable as_dbl : list ascii -> option f64.
Variable as_bool : list ascii -> option bool.
Variable cell_int : list ascii -> option Z.
Variable cell_dbl : list ascii -> option f64.
Variable fsin fcos : f64 -> f64.
Variable M_PI : f64.
Variable big : bool.
Variable dbg : bool.
Hypothesis RP : reads_plainly parse as_int as_dbl as_bool.
Notation load := (load parse as_int as_dbl as_bool cell_int cell_dbl).
Notation program := (program parse as_int as_dbl as_bool cell_int cell_dbl fsin fcos M_PI big dbg).

Lemma case_loads fs dir out yml prof l (s : string -> @settings F64) ps : installed fs dir out yml prof ->
  parse (joined_lines yml) = Some (Map l) ->
  loadSettingYaml as_int as_dbl as_bool dbg dir (Map l) = Ok (s (path_text (dir ++ [lit "input.prof"])), dir ++ [lit "input.prof"], 4) ->
  prof_load dbg (s_rho0 (s (path_text (dir ++ [lit "input.prof"])))) prof = Ok (@nofZ F64 0, ps) ->
  exists f1, load dbg (dir ++ [lit "settings.yml"]) out fs = (f1, Ok (mkI (s (path_text (dir ++ [lit "input.prof"]))) ps (@nofZ F64 0))) /\ room out f1.
Proof.
  intros (I1 & I2 & I3 & I4 & I5) P L Q.
  eexists. split.
  - eapply load_complete; [exact I1|exact P|rewrite parent_snoc; exact L| |exact I2|exact (proj1 I5)|rewrite filename_snoc; exact I3|rewrite filename_snoc; exact I4|rewrite !filename_snoc; discriminate].
    unfold loadParticles, extension. rewrite filename_snoc, I2. exact Q.
  - rewrite !filename_snoc. destruct I5 as (O & K). split.
    + rewrite !put_other; [exact O| |]; intros E; rewrite <- (app_nil_r out) in E at 1; apply app_inv_head in E; discriminate.
    + intros kind IK. destruct (K kind IK) as (K1 & K2). split.
      * rewrite !put_other; [exact K1| |]; intros E; apply app_inv_head in E; destruct IK as [<-|[<-|[<-|[]]]]; discriminate.
      * intros k Hk. rewrite !put_other; [apply K2, Hk| |]; intros E; first [exact (outputPath_deep _ _ _ _ E)|symmetry in E; exact (outputPath_deep _ _ _ _ E)].
Qed.

Lemma case_runs S real clk fuel fs dir out f1 (s : @settings F64) ps exact m n saved e t d :
  load dbg (dir ++ [lit "settings.yml"]) out fs = (f1, Ok (mkI s ps (@nofZ F64 0))) -> room out f1 -> room out fs -> fs (dir ++ [lit "settings.yml"]) <> None ->
  factoryCreate fsin fcos M_PI s ps = Ok m -> s_asserts s = dbg -> s_method s = "Implicit"%string ->
  numbered exact -> Forall2 close exact ps -> (Z.of_nat (List.length ps) * 3 <= int_max) ->
  sized S -> radiusF (s_reMax s) -> proper_domainF (s_domain s) ->
  (forall st', run S real clk fuel (newSim (@nofZ F64 0) s m) = Ok st' -> si_step st' = Z.of_nat n /\ map o_step (si_out st') = saved) ->
  nlt (time_at (@nofZ F64 0) (s_dt s) n) (s_endTime s) = false -> Z.of_nat n < int_max -> (n <= fuel)%nat ->
  ReportF.upto t (@nsub F64 (s_endTime s) (@nofZ F64 0)) -> least (- d) (s_dt s) -> 0 <= e <= 62 -> -900 <= t -> -900 <= d -> -900 <= t + d -> e + t + d <= 61 ->
  (forall k, real <= fst (clk k) <= snd (clk k) /\ snd (clk k) - real <= 2 ^ e) ->
  case_ends S dbg m (Z.of_nat n) saved (snd (program S real clk fuel (dir ++ [lit "settings.yml"]) out fs)).
Proof.
  intros L R1 R0 F0 FC AS ME NB CL SM SZ RF PD RES OV NI NF UT LD He Ht Hd Htd Hs CK.
  destruct (close_sound _ _ NB CL) as (IX & AR). destruct (factory_sound _ _ _ _ _ _ FC IX AR) as (SD & EP & ES).
  rewrite (program_ends parse as_int as_dbl as_bool cell_int cell_dbl fsin fcos M_PI big dbg S real clk fuel _ _ _ _ _ _ F0 (proj1 R0) L R1 FC); [|intros _; exact SM].
  cbn [i_start i_settings i_particles]. cbn [i_start i_settings] in *.
  set (st0 := newSim (@nofZ F64 0) s m) in *.
  assert (Q : asserts m = true -> dbg = true).
  { unfold asserts. rewrite ES, AS. clear -FC ME AS. unfold factoryCreate in FC. binds FC. binds FC. unfold newMPS in FC. binds FC. binds FC. binds FC. binds FC. inv FC. cbn [m_calc].
    match goal with H : factoryCalculator _ _ = Ok _ |- _ => unfold factoryCalculator in H; rewrite ME in H; cbn [String.eqb Ascii.eqb Bool.eqb] in H; binds H; binds H; inv H; cbn [q_asserts] end.
    intros H; apply orb_true_iff in H as [H|H]; congruence. }
  destruct (run_ways S real clk fuel st0 n) as [(st' & E & _)|(k & m' & K & M & W)]; try assumption.
  - repeat split.
  - cbn [st0 newSim si_mps]. rewrite ES. exact RF.
  - cbn [st0 newSim si_mps]. rewrite ES. exact PD.
  - intros k st Hk (A1 & A2 & A3 & A4 & A5). specialize (CK (k - 1)%nat). destruct (clk (k - 1)%nat) as [a b]. cbn [fst snd] in CK.
    assert (P62 : 2 ^ e <= 2 ^ 62) by (apply Z.pow_le_mono_r; lia). assert (M62 : 2 ^ 62 <= int64_max) by (unfold int64_max; lia).
    apply (report_fine real a b st e t d); try lia.
    + rewrite A3, A1. exact UT.
    + rewrite A4. exact LD.
  - left. exists st'. split; [exact E|]. apply RES. exact E.
  - right. exists k, m'. split; [lia|]. split; [exact M|]. destruct W as [(W & E)|W]; [left; split; [apply Q; exact W|exact E]|right; exact W].
Qed.

Lemma case_dam fs dir out : installed fs dir out dambreak_yml (file dambreak_prof) ->
  let s := dam_settings dbg (path_text (dir ++ [lit "input.prof"])) in
  exists f1 exact ps m, load dbg (dir ++ [lit "settings.yml"]) out fs = (f1, Ok (mkI s ps (@nofZ F64 0))) /\ room out f1 /\
    @dambreak Rnum dbg = Ok exact /\ Forall2 close exact ps /\ Forall in_dam_domain ps /\ spaced (25 / 1000 - 2 / 10 ^ 15) ps /\ factoryCreate fsin fcos M_PI s ps = Ok m.
Proof.
  intros I s. destruct (dam_read parse as_int as_dbl as_bool dbg dir RP) as (P & L). destruct (dam_loads dbg) as (ps & Q & C & D).
  assert (EQ : s_rho0 s = rho1000) by (apply same; vm_compute; reflexivity).
  destruct (case_loads fs dir out _ _ _ _ ps I P L) as (f1 & E & R). { fold s. rewrite EQ. exact Q. }
  destruct (factory_ok fsin fcos M_PI s ps 15 27 0) as (m & FC).
  { reflexivity. }
  { intros r [Hr|[Hr|Hr]]; rewrite Hr; clear; destruct dbg; vm_compute; reflexivity. }
  { vm_compute. reflexivity. }
  { vm_compute. reflexivity. }
  { vm_compute. reflexivity. }
  { repeat split; vm_compute; discriminate. }
  exists f1, (built dam_pos 0 dam_sites), ps, m. split; [exact E|]. split; [exact R|]. split; [apply dambreak_R|]. split; [exact C|]. split; [exact D|]. split; [|exact FC].
  apply (fills_spaced (multiple (25 / 1000)) dam_region _ (built dam_pos 0 dam_sites)); [|apply dam_fills|exact C]. intros x y. apply multiple_far. lra.
Qed.
Lemma case_hyd fs dir out : installed fs dir out hydrostatic_yml (file hydrostatic_prof) ->
  let s := hyd_settings dbg (path_text (dir ++ [lit "input.prof"])) in
  exists f1 exact ps m, load dbg (dir ++ [lit "settings.yml"]) out fs = (f1, Ok (mkI s ps (@nofZ F64 0))) /\ room out f1 /\
    @hydrostatic Rnum dbg = Ok exact /\ Forall2 close exact ps /\ Forall in_hyd_domain ps /\ spaced (12 / 1000 - 2 / 10 ^ 15) ps /\ factoryCreate fsin fcos M_PI s ps = Ok m.
Proof.
  intros I s. destruct (hyd_read parse as_int as_dbl as_bool dbg dir RP) as (P & L). destruct (hyd_loads dbg) as (ps & Q & C & D).
  assert (EQ : s_rho0 s = rho1000) by (apply same; vm_compute; reflexivity).
  destruct (case_loads fs dir out _ _ _ _ ps I P L) as (f1 & E & R). { fold s. rewrite EQ. exact Q. }
  destruct (factory_ok fsin fcos M_PI s ps 13 17 0) as (m & FC).
  { reflexivity. }
  { intros r [Hr|[Hr|Hr]]; rewrite Hr; clear; destruct dbg; vm_compute; reflexivity. }
  { vm_compute. reflexivity. }
  { vm_compute. reflexivity. }
  { vm_compute. reflexivity. }
  { repeat split; vm_compute; discriminate. }
  exists f1, (built hyd_pos 0 hyd_sites), ps, m. split; [exact E|]. split; [exact R|]. split; [apply hydrostatic_R|]. split; [exact C|]. split; [exact D|]. split; [|exact FC].
  apply (fills_spaced (midpoint (12 / 1000)) hyd_region _ (built hyd_pos 0 hyd_sites)); [|apply hyd_fills|exact C]. intros x y. apply midpoint_far. lra.
Qed.

Lemma upto_2 : ReportF.upto 1 (@nsub F64 (literal 2 1) (@nofZ F64 0)).
Proof.
  assert (E : F2r (@nsub F64 (literal 2 1) (@nofZ F64 0)) = (IZR 4503599627370496 * bpow radix2 (-51))%R).
  { rewrite F2r_sf. unfold sf_val. vm_compute B2SF. unfold SF2R, F2R. reflexivity. }
  split; [vm_compute; reflexivity|]. rewrite E. simpl. lra.
Qed.
Lemma upto_10 : ReportF.upto 4 (@nsub F64 (literal 10 1) (@nofZ F64 0)).
Proof.
  assert (E : F2r (@nsub F64 (literal 10 1) (@nofZ F64 0)) = (IZR 5629499534213120 * bpow radix2 (-49))%R).
  { rewrite F2r_sf. unfold sf_val. vm_compute B2SF. unfold SF2R, F2R. reflexivity. }
  split; [vm_compute; reflexivity|]. rewrite E. simpl. lra.
Qed.
Lemma least_1 : least (- (10)) (literal 1 1000).
Proof.
  assert (E : F2r (literal 1 1000) = (IZR 4611686018427388 * bpow radix2 (-62))%R).
  { rewrite F2r_sf. unfold sf_val. vm_compute B2SF. unfold SF2R, F2R. reflexivity. }
  split; [vm_compute; reflexivity|]. rewrite E. simpl. lra.
Qed.
Lemma least_2 : least (- (9)) (literal 2 1000).
Proof.
  assert (E : F2r (literal 2 1000) = (IZR 4611686018427388 * bpow radix2 (-61))%R).
  { rewrite F2r_sf. unfold sf_val. vm_compute B2SF. unfold SF2R, F2R. reflexivity. }
  split; [vm_compute; reflexivity|]. rewrite E. simpl. lra.
Qed.
Lemma over_time (dt e : f64) f n : first_over f (@nofZ F64 0) dt e 0 = Some (Z.of_nat n) -> nlt (time_at (@nofZ F64 0) dt n) e = false.
Proof. intros H. apply first_over_spec in H as (j & E & H & _). replace n with j by lia. exact H. Qed.

Lemma run_dam S real clk fuel fs dir out : installed fs dir out dambreak_yml (file dambreak_prof) -> sized S -> usual_clock real clk -> (Z.to_nat 2001 <= fuel)%nat ->
  let s := dam_settings dbg (path_text (dir ++ [lit "input.prof"])) in
  exists f1 ps m, load dbg (dir ++ [lit "settings.yml"]) out fs = (f1, Ok (mkI s ps (@nofZ F64 0))) /\ factoryCreate fsin fcos M_PI s ps = Ok m /\
    case_ends S dbg m 2001 (multiples 40 0 26 0 ++ multiples 40 26 25 1) (snd (program S real clk fuel (dir ++ [lit "settings.yml"]) out fs)).
Proof.
  intros I SZ CK FU s. destruct (case_dam fs dir out I) as (f1 & exact & ps & m & L & R1 & G & C & D & _ & FC). exists f1, ps, m. split; [exact L|]. split; [exact FC|].
  destruct (dam_exact dbg) as (ex & G2 & LN & (_ & _ & NB & _)). rewrite G2 in G. inv G.
  assert (E1 : @nofZ F64 0 = bits 0) by (apply same; vm_compute; reflexivity). assert (E2 : literal 1 1000 = bits 0x3f50624dd2f1a9fc) by (apply same; vm_compute; reflexivity).
  assert (E3 : literal 2 1 = bits 0x4000000000000000) by (apply same; vm_compute; reflexivity). assert (E4 : literal 4 100 = bits 0x3fa47ae147ae147b) by (apply same; vm_compute; reflexivity).
  change 2001 with (Z.of_nat (Z.to_nat 2001)).
  apply (case_runs S real clk fuel fs dir out f1 s ps exact m _ _ 48 1 10); try assumption; try lia.
  - exact (proj2 (proj2 (proj2 (proj2 I)))).
  - rewrite (proj1 I). discriminate.
  - reflexivity.
  - reflexivity.
  - assert (LQ := C); apply Forall2_length in LQ; rewrite <- LQ, LN. unfold int_max. lia.
  - split; vm_compute; reflexivity.
  - repeat split; vm_compute; reflexivity.
  - intros st' E. apply (dambreak_lemma S real clk fuel (newSim (@nofZ F64 0) s m)); [repeat split|repeat split; assumption|exact E].
  - apply (over_time (s_dt s) (s_endTime s) (Z.to_nat 2001)). change (s_dt s) with (literal 1 1000). change (s_endTime s) with (literal 2 1). rewrite E1, E2, E3. exact dambreak_over.
  - rewrite Z2Nat.id by lia. reflexivity.
  - exact upto_2.
  - exact least_1.
Qed.
Lemma run_hyd S real clk fuel fs dir out : installed fs dir out hydrostatic_yml (file hydrostatic_prof) -> sized S -> usual_clock real clk -> (Z.to_nat 5000 <= fuel)%nat ->
  let s := hyd_settings dbg (path_text (dir ++ [lit "input.prof"])) in
  exists f1 ps m, load dbg (dir ++ [lit "settings.yml"]) out fs = (f1, Ok (mkI s ps (@nofZ F64 0))) /\ factoryCreate fsin fcos M_PI s ps = Ok m /\
    case_ends S dbg m 5000 (multiples 50 0 21 0 ++ multiples 50 21 79 1 ++ [5000]) (snd (program S real clk fuel (dir ++ [lit "settings.yml"]) out fs)).
Proof.
  intros I SZ CK FU s. destruct (case_hyd fs dir out I) as (f1 & exact & ps & m & L & R1 & G & C & D & _ & FC). exists f1, ps, m. split; [exact L|]. split; [exact FC|].
  destruct (hyd_exact dbg) as (ex & G2 & LN & (_ & _ & NB & _)). rewrite G2 in G. inv G.
  assert (E1 : @nofZ F64 0 = bits 0) by (apply same; vm_compute; reflexivity). assert (E2 : literal 2 1000 = bits 0x3f60624dd2f1a9fc) by (apply same; vm_compute; reflexivity).
  assert (E3 : literal 10 1 = bits 0x4024000000000000) by (apply same; vm_compute; reflexivity). assert (E4 : literal 1 10 = bits 0x3fb999999999999a) by (apply same; vm_compute; reflexivity).
  change 5000 with (Z.of_nat (Z.to_nat 5000)) at 1.
  apply (case_runs S real clk fuel fs dir out f1 s ps exact m _ _ 48 4 9); try assumption; try lia.
  - exact (proj2 (proj2 (proj2 (proj2 I)))).
  - rewrite (proj1 I). discriminate.
  - reflexivity.
  - reflexivity.
  - assert (LQ := C); apply Forall2_length in LQ; rewrite <- LQ, LN. unfold int_max. lia.
  - split; vm_compute; reflexivity.
  - repeat split; vm_compute; reflexivity.
  - intros st' E. apply (hydrostatic_lemma S real clk fuel (newSim (@nofZ F64 0) s m)); [repeat split|repeat split; assumption|exact E].
  - apply (over_time (s_dt s) (s_endTime s) (Z.to_nat 5001)). change (s_dt s) with (literal 2 1000). change (s_endTime s) with (literal 10 1). rewrite E1, E2, E3. exact hydrostatic_over.
  - rewrite Z2Nat.id by lia. reflexivity.
  - exact upto_10.
  - exact least_2.
Qed.
End Case.

(** ** A reader and a disk that meet the assumptions *)
From Verif Require Import LoaderCases FilesFacts SpecShipped.
Lemma plain_reader : reads_plainly flat_yaml read_int read_dbl read_bool.
Proof.
  split; [auto|]. split; [|split; [|split; reflexivity]].
  - intros z [A B]. unfold read_int. rewrite <- (app_nil_r (showZ z)), (get_int_showZ z []); [reflexivity| |exact I].
    unfold in_int. apply andb_true_iff. split; apply Z.leb_le; assumption.
  - intros t x E. unfold read_dbl. rewrite E. reflexivity.
Qed.
Definition shipped_disk (yml prof : list string) : filesystem :=
  disk [([], Folder); ([lit "in"], Folder); ([lit "out"], Folder); ([lit "in"; lit "settings.yml"], File (joined_lines yml)); ([lit "in"; lit "input.prof"], File (file prof))].
Lemma disk_installed yml prof : installed (shipped_disk yml prof) [lit "in"] [lit "out"] yml (file prof).
Proof.
  unfold installed. split; [reflexivity|]. split; [reflexivity|]. split; [reflexivity|]. split; [reflexivity|]. split; [reflexivity|]. intros kind I. split.
  - left. simpl in I. destruct I as [<-|[<-|[<-|[]]]]; reflexivity.
  - intros k _. unfold shipped_disk. rewrite disk_none; [discriminate|]. intros J. apply (in_map (@List.length _)) in J. rewrite map_map in J.
    replace (List.length (outputPath [lit "out"] kind k)) with 3%nat in J by reflexivity. simpl in J. lia.
Qed.
From Verif Require Import SimCases SpecShipped.
Lemma tick_usual : usual_clock 0 tickF.
Proof. intros k. cbn. lia. Qed.
