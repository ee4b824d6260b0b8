(** * The run in the workflow (C85) *)
From Coq Require Import String.
From Verif Require Import Types ProgramFacts ProgramEnds MessagesFacts ConsoleFacts SimFacts SimF ShippedCases ScriptCases RunnerFacts GeneratorCases WorkflowText SpecMessages SpecWorkflow.
Open Scope list_scope.
Open Scope Z_scope.
#[local] Remove Hints Rnum : typeclass_instances.

(** ** Files that are not written *)
Section Unwritten.
Variable big : bool.
Variable p : path.
Definition same_at (f f' : filesystem) : Prop := f' p = f p.
Lemma same_trans a b c : same_at a b -> same_at b c -> same_at a c.
Proof. unfold same_at. congruence. Qed.
Lemma write_same q text fs fs' o : p <> q -> write_file q text fs = (fs', o) -> same_at fs fs'.
Proof. intros N H. unfold same_at. apply write_inv in H as [(_ & ->)|(_ & _ & [(b & _ & _ & ->)|(_ & ->)])]; [reflexivity| |]; now apply put_other. Qed.
Lemma create_same q fs fs' o : p <> q -> create_dir q fs = (fs', o) -> same_at fs fs'.
Proof. intros N H. unfold same_at. apply create_inv in H as [(_ & ->)|(_ & [(_ & ->)|(_ & _ & ->)])]; [reflexivity|reflexivity|now apply put_other]. Qed.
Lemma saver_same out fs fs' o : (forall n, p <> out ++ [n]) -> newSaver out fs = (fs', o) -> same_at fs fs'.
Proof.
  intros N H. unfold newSaver in H.
  eapply (after_inv same_at); [apply same_trans| | |exact H]; [intros; eapply create_same; [|eassumption]; apply N|].
  intros f1 a f2 o2 _ K. eapply (after_inv same_at); [apply same_trans| | |exact K]; [intros; eapply create_same; [|eassumption]; apply N|].
  intros f3 a3 f4 o4 _ K4. eapply create_same; [|exact K4]. apply N.
Qed.
Lemma files_same bin out (o : @output F64) fs fs' r : (forall kind, p <> outputPath out kind (o_number o)) -> saveFiles big bin out o fs = (fs', r) -> same_at fs fs'.
Proof.
  intros N H. unfold saveFiles in H. cbv zeta in H.
  eapply (after_inv same_at); [apply same_trans| | |exact H]; [intros; eapply write_same; [|eassumption]; apply N|].
  intros f1 a f2 o2 _ K. eapply (after_inv same_at); [apply same_trans| | |exact K]; [intros; eapply write_same; [|eassumption]; apply N|].
  intros f3 a3 f4 o4 _ K4. eapply write_same; [|exact K4]. apply N.
Qed.
Lemma all_same bin out l : forall fs fs' r, Forall (fun o : @output F64 => forall kind, p <> outputPath out kind (o_number o)) l -> saveAll big bin out l fs = (fs', r) -> same_at fs fs'.
Proof.
  induction l as [|o l IH]; intros fs fs' r F H; cbn [saveAll] in H.
  - injection H as <- _. reflexivity.
  - inversion F as [|x y F1 F2]; subst. eapply (after_inv same_at); [apply same_trans| | |exact H]; [intros; eapply files_same; eassumption|].
    intros f3 a3 f4 o4 _ K4. exact (IH _ _ _ F2 K4).
Qed.
End Unwritten.

Section Loop.
Variables (big bin : bool) (out : path) (kind : string) (z : Z) (S : @solver F64) (real : Z) (clk : nat -> Z * Z) (st0 : @sim F64).
Hypothesis Z0 : 0 <= z.
Hypothesis NR : forall k st, reached S real clk st0 k st -> si_file st <= z.
Notation kept := (same_at (outputPath out kind z)).
Lemma number_other kd n : 0 <= n < z -> outputPath out kind z <> outputPath out kd n.
Proof. intros H E. apply outputPath_inj in E as [_ E]; lia. Qed.
Lemma added_other (st st' : @sim F64) l : adds st st' l -> 0 <= si_file st -> si_file st' <= z ->
  Forall (fun o : @output F64 => forall kd, outputPath out kind z <> outputPath out kd (o_number o)) l.
Proof. intros (_ & [(-> & _)|(o & -> & E & F)]) P H; [constructor|]. constructor; [|constructor]. intros kd. apply number_other. lia. Qed.
Lemma loop_same : forall fuel k st fs fs' r, reached S real clk st0 k st -> 0 <= si_file st ->
  loopFiles big S real clk bin out fuel k st fs = (fs', r) -> kept fs fs'.
Proof.
  induction fuel as [|fuel IH]; intros k st fs fs' r R P H; cbn [loopFiles] in H; destruct (nlt (si_time st) (si_end st)) eqn:L; try (injection H as <- _; reflexivity).
  eapply (after_inv kept); [apply same_trans| | |exact H]; [intros f1 o1 [= <- _]; reflexivity|].
  intros f1 st' f2 o2 [= <- E] K. destruct (iteration_adds _ _ _ _ _ E) as (l & A). rewrite (news_of _ _ _ A) in K.
  assert (R' := reached_S _ _ _ _ _ _ _ R L E). destruct (adds_nonneg _ _ _ P A) as (P1 & P2).
  eapply (after_inv kept); [apply same_trans| | |exact K]; [intros; eapply all_same; [|eassumption]; eapply added_other; [exact A|exact P|exact (NR _ _ R')]|].
  intros f3 a3 f4 o4 _ K4. exact (IH _ _ _ _ _ R' P2 K4).
Qed.
Lemma run_same fuel fs fs' r : 0 <= si_file st0 -> runFiles big S real clk bin out fuel st0 fs = (fs', r) -> kept fs fs'.
Proof.
  intros P H. unfold runFiles in H.
  eapply (after_inv kept); [apply same_trans| | |exact H]; [intros f1 o1 [= <- _]; reflexivity|].
  intros f1 st' f2 o2 [= <- E] K. destruct (save_adds _ _ E) as (l & A). rewrite (news_of _ _ _ A) in K.
  assert (R' := reached_0 S real clk _ _ E). destruct (adds_nonneg _ _ _ P A) as (P1 & P2).
  eapply (after_inv kept); [apply same_trans| | |exact K]; [intros; eapply all_same; [|eassumption]; eapply added_other; [exact A|exact P|exact (NR _ _ R')]|].
  intros f3 a3 f4 o4 _ K4. exact (loop_same _ _ _ _ _ _ R' P2 K4).
Qed.
End Loop.

(** ** The number of files *)
Lemma plan_mono (st : @sim F64) j k : (j <= k)%nat -> fst (plan st j) <= fst (plan st k).
Proof.
  induction 1 as [|k H IH]; [lia|]. cbn [plan]. destruct (plan st k) as [f l]. cbn [fst] in IH.
  match goal with |- context [if ?c then _ else _] => destruct c end; cbn [fst]; lia.
Qed.
Lemma hydrostatic_files : fst (plan_from (Z.to_nat 4999) (bits 0) (bits 0) (bits 0x3f60624dd2f1a9fc) (bits 0x3fb999999999999a) 0 1 [0]) = 100.
Proof. vm_compute. reflexivity. Qed.
Lemma hyd_few (st : @sim F64) k : hydrostatic_like st -> (k < Z.to_nat 5000)%nat -> fst (plan st k) <= 100.
Proof.
  intros (H1 & H2 & _ & H4) K. etransitivity; [apply (plan_mono st k (Z.to_nat 4999)); lia|].
  pose proof (plan_from_spec st (Z.to_nat 4999) 0 1 [0] eq_refl) as X. cbn [time_at Z.of_nat Nat.add] in X.
  rewrite H1, H2, H4 in X. rewrite <- X, hydrostatic_files. lia.
Qed.
Lemma reached_before S real clk (st0 : @sim F64) k st j : reached S real clk st0 k st -> (j <= k)%nat -> exists st', reached S real clk st0 j st'.
Proof.
  intros R. induction R as [st E|k st st' R IH L E]; intros J.
  - exists st. replace j with O by lia. now constructor.
  - destruct (Nat.eq_dec j (Datatypes.S k)) as [->|D]; [|apply IH; lia]. exists st'. eapply reached_S; eassumption.
Qed.
Lemma hyd_over (st : @sim F64) : hydrostatic_like st -> @nlt F64 (@time_at F64 (si_start st) (si_dt st) (Z.to_nat 5000)) (si_end st) = false.
Proof.
  intros (H1 & H2 & H3 & _). pose proof hydrostatic_over as D. rewrite <- H1, <- H2, <- H3 in D. apply first_over_spec in D as (j & E & N & _).
  replace (Z.to_nat 5000) with j by lia. exact N.
Qed.
Lemma hyd_last S real clk fuel (st0 : @sim F64) k st : fresh st0 -> hydrostatic_like st0 -> (Z.to_nat 5000 <= fuel)%nat ->
  reached S real clk st0 k st -> 100 < si_file st -> exists st', run S real clk fuel st0 = Ok st'.
Proof.
  intros F H FU R P. destruct (reached_plan _ _ _ _ _ _ F R) as (Q & _).
  destruct (le_lt_dec (Z.to_nat 5000) k) as [K|K]; [|pose proof (hyd_few _ _ H K); lia].
  destruct (reached_before _ _ _ _ _ _ _ R K) as (s & T). exists s. rewrite (reached_run _ _ _ _ _ _ T _ FU).
  destruct (reached_inv _ _ _ _ _ _ F T) as ((_ & E & _) & TI & _).
  assert (N : @nlt F64 (si_time s) (si_end s) = false). { rewrite TI, E. exact (hyd_over _ H). }
  clear - N. destruct (fuel - Z.to_nat 5000)%nat; cbn [loop]; now rewrite N.
Qed.
Lemma new_fresh t s m : fresh (@newSim F64 t s m). Proof. repeat split. Qed.
Lemma hyd_like dbg x m : hydrostatic_like (@newSim F64 (@nofZ F64 0) (hyd_settings dbg x) m).
Proof.
  assert (E1 : @nofZ F64 0 = bits 0) by (apply same; vm_compute; reflexivity). assert (E2 : literal 2 1000 = bits 0x3f60624dd2f1a9fc) by (apply same; vm_compute; reflexivity).
  assert (E3 : literal 10 1 = bits 0x4024000000000000) by (apply same; vm_compute; reflexivity). assert (E4 : literal 1 10 = bits 0x3fb999999999999a) by (apply same; vm_compute; reflexivity).
  split; [exact E1|]. split; [exact E2|]. split; [exact E3|exact E4].
Qed.

Section Job.
Variables (parse : list ascii -> option node) (as_int : list ascii -> option Z) (as_dbl : list ascii -> option f64) (as_bool : list ascii -> option bool).
Variables (cell_int : list ascii -> option Z) (cell_dbl : list ascii -> option f64) (fsin fcos : f64 -> f64) (M_PI : f64) (big : bool).
Variables (S : solver) (real fin : Z) (clk : nat -> Z * Z) (fuel : nat) (what usage : string).
Notation prog dbg := (program parse as_int as_dbl as_bool cell_int cell_dbl fsin fcos M_PI big dbg S real clk fuel).
Notation mainS dbg := (mainSay parse as_int as_dbl as_bool cell_int cell_dbl fsin fcos M_PI big dbg S real fin clk fuel false).
Notation loadF dbg := (load parse as_int as_dbl as_bool cell_int cell_dbl dbg).

(** what is written was due *)
Lemma program_written dbg setting out fs fs' o f1 i m kind z : prog dbg setting out fs = (fs', o) -> loadF dbg setting out fs = (f1, Ok i) ->
  factoryCreate fsin fcos M_PI (i_settings i) (i_particles i) = Ok m -> 0 <= z -> fs' (outputPath out kind z) <> fs (outputPath out kind z) ->
  exists k st, reached S real clk (newSim (i_start i) (i_settings i) m) k st /\ z < si_file st.
Proof.
  intros H L M Z0 N. apply Classical_Prop.NNPP. intros A. apply N. clear N.
  assert (NR : forall k st, reached S real clk (newSim (i_start i) (i_settings i) m) k st -> si_file st <= z).
  { intros k st R. destruct (Z_le_gt_dec (si_file st) z) as [G|G]; [exact G|]. exfalso. apply A. exists k, st. split; [exact R|lia]. }
  assert (D : forall n, outputPath out kind z <> out ++ [n]) by (intros n E; exact (outputPath_deep _ _ _ _ E)).
  change (same_at (outputPath out kind z) fs fs').
  assert (LS : same_at (outputPath out kind z) fs f1).
  { unfold same_at. pose proof (load_copies _ _ _ _ _ _ _ _ _ _ _ _ L) as [->|[(T & b & ->)|(pp & b & b' & T & T2 & ->)]]; [reflexivity| |]; rewrite !put_other by apply D; reflexivity. }
  unfold Program.program in H. destruct (fs setting) as [es|]; [|injection H as <- _; reflexivity]. destruct (fs out) as [[b|]|]; try (injection H as <- _; reflexivity).
  unfold after at 1 in H. rewrite L in H. eapply same_trans; [exact LS|].
  eapply (after_inv (same_at (outputPath out kind z))); [apply same_trans| | |exact H]; [intros; eapply saver_same; [exact D|eassumption]|].
  clear H LS. intros f2 [] f3 o3 _ H. unfold after, ret in H. rewrite M in H.
  eapply run_same; [exact Z0|exact NR| |exact H]. cbn [newSim si_file]. lia.
Qed.

(** the text of a completed run *)
Lemma took_completed dbg setting out fs fs' w st : mainS dbg (Some setting) (Some out) fs = (fs', w, Ok st) -> has_blank setting = false -> has_blank out = false ->
  calculationTime (consoleText what w) = if - 1000000000 <? fin - real then lit (calHourMinuteSecond (fin - real)) else [].
Proof.
  intros H B1 B2. apply main_completed in H as (se & o & sb & y & s & pp & cores & t & ps & m & l & E1 & E2 & _ & _ & _ & _ & _ & -> & R).
  injection E1 as <-. injection E2 as <-. apply C63_lemma in R as (ws & -> & _ & W); [|apply new_fresh].
  unfold calculationTime. rewrite totals_log; [|exact B1|exact B2|].
  - destruct (_ <? _); reflexivity.
  - apply Forall_concat. apply Forall_forall. intros w0 I. apply In_nth_error in I as (k & K). destruct (W _ _ K) as (m' & _ & P). exact (printed_events _ _ _ _ _ _ _ P).
Qed.
Lemma took_nothing dbg setting out fs fs' w st : mainS dbg (Some setting) (Some out) fs = (fs', w, Ok st) -> has_blank setting = false -> has_blank out = false ->
  fin - real <= - 1000000000 -> calculationTime (consoleText what w) = [].
Proof. intros H B1 B2 D. rewrite (took_completed _ _ _ _ _ _ _ H B1 B2). destruct (Z.ltb_spec (- 1000000000) (fin - real)); [lia|reflexivity]. Qed.

(** ** The disk of the job *)
Lemma tree_up fs q : tree fs -> forall p, q <> [] -> fs (p ++ q) <> None -> fs p = Some Folder.
Proof.
  intros (_ & T). induction q as [|n q IH] using rev_ind; intros p Q H; [congruence|]. rewrite app_assoc in H. apply T in H.
  destruct q as [|a q]; [now rewrite app_nil_r in H|]. apply IH; [discriminate|]. rewrite H. discriminate.
Qed.
Lemma no_child fs p q : tree fs -> fs p = None -> fs (p ++ q) = None.
Proof.
  intros T H. destruct q as [|a q]; [now rewrite app_nil_r|]. destruct (fs (p ++ a :: q)) as [e|] eqn:E; [|reflexivity].
  assert (X : fs p = Some Folder) by (apply (tree_up fs (a :: q) T); [discriminate|rewrite E; discriminate]). congruence.
Qed.
Variable root : path.
Notation inp := (root ++ [lit "input"; lit "hydrostatic"]).
Notation out := (root ++ [lit "result"; lit "hydrostatic"]).
Lemma inp_app n : inp ++ [n] = root ++ [lit "input"; lit "hydrostatic"; n].
Proof. rewrite <- app_assoc. reflexivity. Qed.
Lemma out_app l : out ++ l = root ++ lit "result" :: lit "hydrostatic" :: l.
Proof. rewrite <- app_assoc. reflexivity. Qed.
Lemma generated fs : cloned root fs -> exists fs1, generateStep big root fs = (fs1, Ok tt) /\
  (exists b, fs1 (root ++ [lit "build"; lit "mps"]) = Some (File b)) /\ fs1 (inp ++ [lit "settings.yml"]) = Some (File (joined_lines hydrostatic_yml)) /\
  fs1 (inp ++ [lit "input.prof"]) = Some (File (file hydrostatic_prof)) /\ forall q, fs1 (root ++ lit "result" :: q) = None.
Proof.
  intros (T & (b & HB) & HS & HP & HV & HR).
  assert (HS' : fs (inp ++ [lit "settings.yml"]) = Some (File (joined_lines hydrostatic_yml))) by (rewrite inp_app; exact HS).
  destruct (hyd_run big false 1 [lit "y"] root fs T) as (fs1 & qs & G & _ & P & _ & O).
  - intros p q c E K. assert (X : fs p = Some Folder); [|congruence].
    apply (tree_up fs (q ++ [lit "settings.yml"]) T); [destruct q; discriminate|]. rewrite app_assoc, <- E, HS'. discriminate.
  - right. rewrite !inp_app. split; [exact HP|]. split; [exact HV|]. split; [|cbn; lia]. exists [], (lit "y"), []. split; [reflexivity|]. split; [now left|constructor].
  - exists fs1. split; [exact G|]. split; [|split; [|split; [exact P|]]].
    + exists b. destruct (O (root ++ [lit "build"; lit "mps"])) as [E|(E & _)]; [| |congruence|congruence]; rewrite inp_app; intros K; apply app_inv_head in K; discriminate.
    + destruct (O (inp ++ [lit "settings.yml"])) as [E|(E & _)]; [| |congruence|congruence]; intros K; apply app_inv_head in K; discriminate.
    + intros q. assert (N : fs (root ++ lit "result" :: q) = None).
      { change (lit "result" :: q) with ([lit "result"] ++ q). rewrite app_assoc. apply no_child; assumption. }
      destruct (O (root ++ lit "result" :: q)) as [E|(_ & _ & r & E)]; [| |congruence|]; try (rewrite inp_app; intros K; apply app_inv_head in K; discriminate).
      rewrite <- app_assoc in E. apply app_inv_head in E. discriminate.
Qed.
Lemma made fs1 : (forall q, fs1 (root ++ lit "result" :: q) = None) -> exists fs2, mkdir_p root [lit "result"; lit "hydrostatic"] fs1 = (fs2, true) /\ fs2 out = Some Folder /\
  (forall n q, fs2 (out ++ n :: q) = None) /\ forall n q, n <> lit "result" -> fs2 (root ++ n :: q) = fs1 (root ++ n :: q).
Proof.
  intros N. cbn [mkdir_p]. rewrite (N []). assert (E : (root ++ [lit "result"]) ++ [lit "hydrostatic"] = out) by (rewrite <- app_assoc; reflexivity). rewrite E.
  rewrite put_other by (intros K; apply app_inv_head in K; discriminate). rewrite (N [lit "hydrostatic"]).
  eexists. split; [reflexivity|]. split; [apply put_same|]. split.
  - intros n q. rewrite out_app. rewrite !put_other by (intros K; apply app_inv_head in K; discriminate). apply N.
  - intros n q D. rewrite !put_other by (intros K; apply app_inv_head in K; injection K as K; auto). reflexivity.
Qed.

(** ** The job *)
Hypothesis RP : reads_plainly parse as_int as_dbl as_bool.
Hypothesis SZ : sized S.
Hypothesis CK : usual_clock real clk.
Hypothesis FU : (Z.to_nat 5000 <= fuel)%nat.
Lemma hyd_hundred : nth_error (multiples 50 0 21 0 ++ multiples 50 21 79 1 ++ [5000]) 100 = Some 5000.
Proof. reflexivity. Qed.
(** the program on the prepared disk *)
Lemma hyd_program fs o_ : let set := inp ++ [lit "settings.yml"] in installed fs inp o_ hydrostatic_yml (file hydrostatic_prof) -> (forall q, fs (outputPath o_ "vtu" q) = None) ->
  exists exact ps m, @hydrostatic Rnum false = Ok exact /\ Forall2 close exact ps /\ Forall in_hyd_domain ps /\
    factoryCreate fsin fcos M_PI (hyd_settings false (path_text (inp ++ [lit "input.prof"]))) ps = Ok m /\
    forall fs' r, prog false set o_ fs = (fs', r) ->
      (exists st mk picture, r = Ok st /\ steps S (Z.to_nat 5000) m mk /\
        toVtuBinary big (@time_at F64 (@nofZ F64 0) (literal 2 1000) (Z.to_nat 5000)) (rv_n0 (m_rvN mk)) (m_ps mk) = Ok picture /\ fs' (outputPath o_ "vtu" 100) = Some (File picture)) \/
      ((forall st, r <> Ok st) /\ fs' (outputPath o_ "vtu" 100) = None /\ exists k m', Z.of_nat k < 5000 /\ steps S k m m' /\ (((exists j ts b, S j ts b = None) /\ r = Exit (-1)) \/ (meets_nan m' /\ r = Undef BadCast))).
Proof.
  intros set I V. destruct (case_hyd _ _ _ _ cell_int cell_dbl fsin fcos M_PI false RP fs inp o_ I) as (f1 & exact & ps & m & L & R1 & G & C & D & _ & FC).
  set (s := hyd_settings false (path_text (inp ++ [lit "input.prof"]))) in *.
  destruct (run_hyd _ _ _ _ cell_int cell_dbl fsin fcos M_PI big false RP S real clk fuel fs inp o_ I SZ CK FU) as (f2 & ps2 & m2 & L2 & FC2 & CE).
  apply (same_loaded _ _ _ _ _ _ _ L) in L2. subst ps2. fold s in FC2. rewrite FC in FC2. injection FC2 as FC2. subst m2.
  exists exact, ps, m. split; [exact G|]. split; [exact C|]. split; [exact D|]. split; [exact FC|]. intros fs' r H. fold set in CE. rewrite H in CE. cbn [snd] in CE.
  assert (RUN : r = run S real clk fuel (newSim (@nofZ F64 0) s m)).
  { pose proof (program_ends parse as_int as_dbl as_bool cell_int cell_dbl fsin fcos M_PI big false S real clk fuel set o_ fs f1 (mkI s ps (@nofZ F64 0)) m) as X.
    rewrite H in X. apply X; [unfold set; rewrite (proj1 I); discriminate|exact (proj1 (proj2 (proj2 (proj2 (proj2 I)))))|exact L|exact R1|exact FC|].
    intros _. destruct (hyd_exact false) as (ex & G2 & LN & _). rewrite G2 in G. injection G as G. subst ex. apply Forall2_length in C. cbn [i_particles]. rewrite <- C, LN. unfold int_max. lia. }
  assert (LIKE : hydrostatic_like (newSim (@nofZ F64 0) s m)) by apply hyd_like.
  assert (BIN : s_vtkBinary s = true) by reflexivity.
  assert (ST : si_start (newSim (@nofZ F64 0) s m) = @nofZ F64 0 /\ si_dt (newSim (@nofZ F64 0) s m) = literal 2 1000 /\ si_mps (newSim (@nofZ F64 0) s m) = m) by (split; [reflexivity|split; reflexivity]).
  pose proof (new_fresh (@nofZ F64 0) s m) as FR.
  assert (W : fs' (outputPath o_ "vtu" 100) <> None -> exists st, r = Ok st).
  { intros N. destruct (program_written false set o_ fs fs' r f1 (mkI s ps (@nofZ F64 0)) m "vtu" 100 H L FC) as (k & st & R & Q); [lia|rewrite V; exact N|].
    cbn [i_start i_settings] in R. rewrite RUN. exact (hyd_last _ _ _ _ _ _ _ FR LIKE FU R Q). }
  assert (DEC : (exists st, r = Ok st) \/ (forall st, r <> Ok st)) by (clear; destruct r; [left; eauto|right; discriminate..]).
  destruct DEC as [(st & E)|N].
  - left. rewrite E in H, RUN. symmetry in RUN. destruct (hydrostatic_lemma _ _ _ _ _ _ FR LIKE RUN) as (SS & OS).
    pose proof (f_equal (fun l => nth_error l 100) OS) as O1. cbv beta in O1. rewrite hyd_hundred in O1.
    rewrite nth_error_map in O1. destruct (nth_error (si_out st) 100) as [o|] eqn:OE; [|discriminate]. cbn [option_map] in O1. injection O1 as O1.
    apply run_reached in RUN as (n & R & _). destruct (reached_schedule _ _ _ _ _ _ FR R) as (_ & SC & _). destruct (SC _ _ OE) as (NU & j & _ & J1 & J2 & J3).
    rewrite (proj1 ST), (proj1 (proj2 ST)) in J2. rewrite (proj2 (proj2 ST)) in J3. assert (J : j = Z.to_nat 5000) by lia. subst j.
    apply program_ok in H as (sb & y & pp & cores & pb & i & m2 & P1 & P2 & P3 & P4 & _ & _ & _ & _ & _ & P5).
    apply load_ok in L as (sb' & y' & pp' & cores' & pb' & Q1 & Q2 & Q3 & _).
    assert (BI : s_vtkBinary (i_settings i) = true). { cbn [i_settings] in Q3. unfold set in P1, P3. rewrite P1 in Q1. injection Q1 as Q1. subst sb'. rewrite P2 in Q2. injection Q2 as Q2. subst y'. rewrite P3 in Q3.
      assert (X : i_settings i = s) by (clear - Q3; congruence). rewrite X. exact BIN. }
    rewrite BI in P5. rewrite Forall_forall in P5. apply nth_error_In in OE. destruct (P5 _ OE) as (_ & (b & (B1 & _) & B2) & _).
    specialize (B1 eq_refl). rewrite J2 in B1. change (Z.of_nat 100) with 100 in NU. rewrite NU in B2.
    exists st, (o_mps o), b. split; [exact E|]. split; [exact J3|]. split; [exact B1|exact B2].
  - right. split; [exact N|]. split.
    + destruct (fs' (outputPath o_ "vtu" 100)) as [e|] eqn:E; [|reflexivity]. exfalso. assert (X : exists st, r = Ok st) by (apply W; discriminate). destruct X as (st & K). exact (N st K).
    + destruct CE as [(st & K & _)|(k & m' & K1 & K2 & [(K & _)|K3])]; [destruct (N st K)|discriminate|]. exists k, m'. split; [exact K1|]. split; [exact K2|exact K3].
Qed.

Lemma blank_app a b : has_blank (a ++ b) = has_blank a || has_blank b.
Proof. unfold has_blank. apply existsb_app. Qed.
Lemma put_log_file fs p b c : fs p = Some (File c) -> put_log fs p b = put fs p (File b).
Proof. unfold put_log. now intros ->. Qed.
Lemma put_log_none fs p b : fs p = None -> put_log fs p b = put fs p (File b).
Proof. unfold put_log. now intros ->. Qed.
Lemma picture_path o_ : o_ ++ [lit "vtu"; lit "output_0100.vtu"] = outputPath o_ "vtu" 100.
Proof. reflexivity. Qed.
Lemma kept_direct o_ fs fs' n c : only_output o_ fs fs' -> fs (o_ ++ [n]) = Some (File c) -> fs' (o_ ++ [n]) = Some (File c).
Proof. intros O E. destruct (O (o_ ++ [n])) as [K|[(K & _)|(_ & kd & k & _ & _ & K)]]; [congruence|congruence|]. symmetry in K. destruct (outputPath_deep _ _ _ _ K). Qed.

Hypothesis IN : in_int64 (fin - real) = true.
Hypothesis NB : has_blank root = false.
Notation jobF := (hydrostaticJob parse as_int as_dbl as_bool cell_int cell_dbl fsin fcos M_PI big S real fin clk fuel what usage root).
Notation took := (if - 1000000000 <? fin - real then lit (calHourMinuteSecond (fin - real)) else []).
Lemma job_ends fs : cloned root fs ->
  exists exact ps m fs' r, @hydrostatic Rnum false = Ok exact /\ Forall2 close exact ps /\ Forall in_hyd_domain ps /\
    factoryCreate fsin fcos M_PI (hyd_settings false (path_text (inp ++ [lit "input.prof"]))) ps = Ok m /\ jobF fs = (fs', r) /\
    ((exists mk picture, steps S (Z.to_nat 5000) m mk /\
        toVtuBinary big (@time_at F64 (@nofZ F64 0) (literal 2 1000) (Z.to_nat 5000)) (rv_n0 (m_rvN mk)) (m_ps mk) = Ok picture /\ r = Commented picture took) \/
     ((forall picture t, r <> Commented picture t) /\ exists k m', Z.of_nat k < 5000 /\ steps S k m m' /\ (((exists j ts b, S j ts b = None) /\ r = Failed "Visualize results") \/ (meets_nan m' /\ r = Unknown)))).
Proof.
  intros C. destruct (generated fs C) as (fs1 & G & (mb & M1) & S1 & P1 & N1). destruct (made fs1 N1) as (fs2 & MK & O2 & E2 & K2).
  set (o_ := out) in *. set (F := put (put fs2 (o_ ++ [lit "console.log"]) (File [])) (o_ ++ [lit "error.log"]) (File [])).
  assert (FO : forall n q, n <> lit "result" -> F (root ++ n :: q) = fs1 (root ++ n :: q)).
  { intros n q D. unfold F, o_. rewrite !out_app. rewrite !put_other by (intros K; apply app_inv_head in K; injection K as K; auto). now apply K2. }
  assert (FN : forall n q, n <> lit "console.log" -> n <> lit "error.log" -> F (o_ ++ n :: q) = None).
  { intros n q D1 D2. unfold F. rewrite !put_other by (intros K; apply app_inv_head in K; injection K as K; auto). apply E2. }
  assert (FF : F o_ = Some Folder).
  { unfold F. rewrite !put_other by (intros K; rewrite <- (app_nil_r o_) in K at 1; apply app_inv_head in K; discriminate). exact O2. }
  assert (FC : F (o_ ++ [lit "console.log"]) = Some (File [])). { unfold F. rewrite put_other by (intros K; apply app_inv_head in K; discriminate). apply put_same. }
  assert (FE : F (o_ ++ [lit "error.log"]) = Some (File [])) by apply put_same.
  assert (I : installed F inp o_ hydrostatic_yml (file hydrostatic_prof)).
  { split; [|split; [|split; [|split]]].
    - rewrite inp_app, FO by discriminate. rewrite <- inp_app. exact S1.
    - rewrite inp_app, FO by discriminate. rewrite <- inp_app. exact P1.
    - apply FN; discriminate.
    - apply FN; discriminate.
    - split; [exact FF|]. intros kd KD. assert (KN : lit kd <> lit "console.log" /\ lit kd <> lit "error.log") by (destruct KD as [<-|[<-|[<-|[]]]]; split; discriminate).
      split; [left; apply FN; apply KN|]. intros k _. unfold outputPath. rewrite FN by apply KN. discriminate. }
  assert (V : forall q, F (outputPath o_ "vtu" q) = None) by (intros q; apply FN; discriminate).
  destruct (hyd_program F o_ I V) as (exact & ps & m & HX & HC & HD & HM & HR).
  destruct (mainS false (Some (inp ++ [lit "settings.yml"])) (Some o_) F) as [[fsP w] r] eqn:MS.
  pose proof (main_erased _ _ _ _ _ _ _ _ _ _ _ _ _ _ _ _ _ _ _ _ _ _ _ IN MS) as PR. pose proof (program_only _ _ _ _ _ _ _ _ _ _ _ _ _ _ _ _ _ _ _ _ PR) as PO.
  assert (HB : has_blank (inp ++ [lit "settings.yml"]) = false /\ has_blank o_ = false). { unfold o_. rewrite !blank_app, NB. split; reflexivity. }
  assert (TK : forall st, r = Ok st -> calculationTime (consoleText what w) = took).
  { intros st ->. exact (took_completed _ _ _ _ _ _ _ MS (proj1 HB) (proj2 HB)). }
  set (fs3 := put (put fsP (o_ ++ [lit "console.log"]) (File (consoleText what w))) (o_ ++ [lit "error.log"]) (File (errorText what usage w))).
  assert (RS : runStep parse as_int as_dbl as_bool cell_int cell_dbl fsin fcos M_PI big S real fin clk fuel what usage root o_ fs2 = (fs3, r)).
  { unfold runStep. cbv zeta. rewrite (put_log_none fs2) by apply E2.
    rewrite (put_other _ _ _ (o_ ++ [lit "error.log"])) by (intros K; apply app_inv_head in K; discriminate). rewrite E2.
    rewrite (put_other _ _ _ (root ++ [lit "build"; lit "mps"])) by (unfold o_; rewrite out_app; intros K; apply app_inv_head in K; discriminate).
    rewrite K2 by discriminate. rewrite M1. rewrite put_log_none by (rewrite put_other by (intros K; apply app_inv_head in K; discriminate); apply E2).
    fold F. rewrite <- (inp_app (lit "settings.yml")), MS.
    rewrite (put_log_file fsP _ _ [] (kept_direct _ _ _ _ _ PO FC)). rewrite (put_log_file _ (o_ ++ [lit "error.log"]) _ []); [reflexivity|].
    rewrite put_other by (intros K; apply app_inv_head in K; discriminate). exact (kept_direct _ _ _ _ _ PO FE). }
  assert (JB : jobF fs = (fs3, go_on r (commentStep o_ fs3))).
  { unfold hydrostaticJob. cbv zeta. rewrite G, MK. fold o_. rewrite RS. rewrite E2. reflexivity. }
  assert (CS : commentStep o_ fs3 = match fsP (outputPath o_ "vtu" 100) with Some (File picture) => Commented picture (calculationTime (consoleText what w)) | _ => Failed "Visualize results" end).
  { unfold commentStep. rewrite picture_path. unfold fs3. rewrite (put_other _ _ _ (outputPath o_ "vtu" 100)) by apply outputPath_deep. rewrite (put_other _ _ _ (outputPath o_ "vtu" 100)) by apply outputPath_deep.
    rewrite (put_other _ _ _ (o_ ++ [lit "console.log"])) by (intros K; apply app_inv_head in K; discriminate). rewrite put_same. reflexivity. }
  exists exact, ps, m, fs3, (go_on r (commentStep o_ fs3)). split; [exact HX|]. split; [exact HC|]. split; [exact HD|]. split; [exact HM|]. split; [exact JB|].
  rewrite CS. destruct (HR fsP r PR) as [(st & mk & picture & R1 & R2 & R3 & R4)|(R1 & R2 & k & m' & R3 & R4 & R5)].
  - left. exists mk, picture. split; [exact R2|]. split; [exact R3|]. rewrite R4, (TK st R1), R1. reflexivity.
  - right. rewrite R2. split.
    + intros picture t. destruct r; discriminate.
    + exists k, m'. split; [exact R3|]. split; [exact R4|]. destruct R5 as [(R5 & R6)|R5]; [left; split; [exact R5|]; rewrite R6; reflexivity|right; destruct R5 as (R5 & R6); split; [exact R5|]; rewrite R6; reflexivity].
Qed.

Lemma job_forward fs : 0 <= fin - real -> cloned root fs ->
  exists exact ps m fs' r, @hydrostatic Rnum false = Ok exact /\ Forall2 close exact ps /\ Forall in_hyd_domain ps /\
    factoryCreate fsin fcos M_PI (hyd_settings false (path_text (root ++ [lit "input"; lit "hydrostatic"; lit "input.prof"]))) ps = Ok m /\ jobF fs = (fs', r) /\
    ((exists mk picture, steps S (Z.to_nat 5000) m mk /\
        toVtuBinary big (@time_at F64 (@nofZ F64 0) (literal 2 1000) (Z.to_nat 5000)) (rv_n0 (m_rvN mk)) (m_ps mk) = Ok picture /\ r = Commented picture (lit (calHourMinuteSecond (fin - real)))) \/
     ((forall picture t, r <> Commented picture t) /\ exists k m', Z.of_nat k < 5000 /\ steps S k m m' /\ (((exists j ts b, S j ts b = None) /\ r = Failed "Visualize results") \/ (meets_nan m' /\ r = Unknown)))).
Proof. intros D C. pose proof (job_ends fs C) as H. rewrite inp_app in H. assert (E : (- 1000000000 <? fin - real) = true) by (apply Z.ltb_lt; lia). rewrite E in H. exact H. Qed.
End Job.
