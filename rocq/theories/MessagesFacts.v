(** * Everything the program prints: proofs *)
From Coq Require Import Reals String.
From Verif Require Import FloatFacts SimF TotalR CsvFacts ResumeFiles ResumeRun StepCasesF BinFacts.
From Verif Require Import ConsoleFacts EndingsFacts.
From Verif Require Export SpecMessages.
Open Scope list_scope.
Open Scope Z_scope.
#[local] Remove Hints Rnum : typeclass_instances.

(** ** Forgetting what is printed *)
Definition erase {A} (m : say A) : act A := fun fs => let '(f, _, o) := m fs in (f, o).
Lemma erase_next {A B} (m : say A) (k : A -> say B) fs : erase (next m k) fs = after (erase m) (fun a => erase (k a)) fs.
Proof. unfold erase, next, after. destruct (m fs) as [[f w] [a|u| |c| |]]; try reflexivity. destruct (k a f) as [[f2 w2] o]. reflexivity. Qed.
Lemma erase_silently {A} (a : act A) fs : erase (silently a) fs = a fs.
Proof. unfold erase, silently. destruct (a fs). reflexivity. Qed.
Lemma erase_or {A} e (a : act A) fs : erase (or_says e a) fs = a fs.
Proof. unfold erase, or_says. destruct (a fs). reflexivity. Qed.
Lemma erase_print l fs : erase (print l) fs = (fs, Ok tt). Proof. reflexivity. Qed.
Lemma after_eq {A B} (m m' : act A) (k k' : A -> act B) fs : m fs = m' fs -> (forall a f, k a f = k' a f) -> after m k fs = after m' k' fs.
Proof. intros E K. unfold after. rewrite E. destruct (m' fs) as [f [a|u| |c| |]]; auto. Qed.
Lemma after_ret {A B} (o : outcome A) (k : A -> act B) fs : after (ret o) k fs = match o with Ok a => k a fs | Undef u => (fs, Undef u) | AssertFail => (fs, AssertFail) | Exit c => (fs, Exit c) | Throw => (fs, Throw) | Diverge => (fs, Diverge) end.
Proof. destruct o; reflexivity. Qed.

Ltac fold_next := rewrite erase_next; unfold after at 1; first [rewrite erase_silently|rewrite erase_print|rewrite erase_or]; try (unfold ret at 1).
Lemma erase_step S m fs : erase (stepSay S m) fs = (fs, stepForward S m).
Proof.
  unfold stepSay. fold_next. destruct (stepMove m) as [[ns ps]|u| |c| |] eqn:E1; try (unfold stepForward; rewrite E1; reflexivity).
  fold_next. fold_next. destruct (stepCollide m ns ps) as [[n2 p2]|u| |c| |] eqn:E2; try (unfold stepForward; rewrite E1; cbn [bind]; rewrite E2; reflexivity).
  fold_next. fold_next. destruct (setNeighbors n2 p2) as [x|u| |c| |] eqn:E3; try (unfold stepForward; rewrite E1; cbn [bind]; rewrite E2; cbn [bind]; unfold stepPressure; cbv zeta; rewrite E3; reflexivity).
  fold_next. fold_next. destruct (stepForward S m) as [m'|u| |c| |]; try reflexivity.
Qed.
Lemma erase_iteration S real clock st fs : erase (iterationSay S real clock st) fs = (fs, iteration S real clock st).
Proof.
  unfold iterationSay, iteration. rewrite erase_next. unfold after at 1. rewrite erase_step. destruct (stepForward S (si_mps st)) as [m'|u| |c| |]; cbn [bind]; try reflexivity.
  fold_next. destruct (cint (si_step st + 1)) as [k|u| |c| |]; cbn [bind]; try reflexivity. cbv zeta.
  fold_next. unfold reportLog. destruct (timeStepReport _ _ _) as [[el re]|u| |c| |]; cbn [bind]; try reflexivity. destruct clock as [a b]. fold_next. rewrite erase_silently. reflexivity.
Qed.
Section Erase.
Variables (big : bool) (bin : bool) (out : path).
Lemma erase_files o fs : erase (saveFilesSay big bin out o) fs = saveFiles big bin out o fs.
Proof.
  unfold saveFilesSay, saveFiles, writeSay. cbv zeta. rewrite erase_next. apply after_eq; [apply erase_or|]. intros _ f. rewrite erase_next. apply after_eq; [apply erase_or|]. intros _ f'. apply erase_or.
Qed.
Lemma erase_all : forall l fs, erase (saveAllSay big bin out l) fs = saveAll big bin out l fs.
Proof. induction l as [|o l IH]; intros fs; cbn [saveAllSay saveAll]; [apply erase_silently|]. rewrite erase_next. apply after_eq; [apply erase_files|]. intros _ f. apply IH. Qed.
Lemma erase_loop S real clk : forall fuel k st fs, erase (loopSay big S real clk bin out fuel k st) fs = loopFiles big S real clk bin out fuel k st fs.
Proof.
  induction fuel as [|fuel IH]; intros k st fs; cbn [loopSay loopFiles]; (destruct (nlt (si_time st) (si_end st)); [|apply erase_silently]); [apply erase_silently|].
  rewrite erase_next. apply after_eq; [apply erase_iteration|]. intros st' f. rewrite erase_next. apply after_eq; [apply erase_all|]. intros _ f'. apply IH.
Qed.
Lemma after_done {A} (m : act A) fs : after m (fun a => ret (Ok a)) fs = m fs.
Proof. unfold after, ret. destruct (m fs) as [f [a|u| |c| |]]; reflexivity. Qed.
Lemma after_assoc {A B C} (m : act A) (k : A -> act B) (h : B -> act C) fs : after (after m k) h fs = after m (fun a => after (k a) h) fs.
Proof. unfold after. destruct (m fs) as [f [a|u| |c| |]]; reflexivity. Qed.
Lemma erase_run S real fin clk fuel st fs : in_int64 (fin - real) = true -> erase (runSay big S real fin clk bin out fuel st) fs = runFiles big S real clk bin out fuel st fs.
Proof.
  intros D. unfold runSay, runFiles. fold_next. rewrite erase_next. apply after_eq; [apply erase_silently|]. intros st' f. rewrite erase_next. apply after_eq; [apply erase_all|]. intros _ f'.
  rewrite erase_next. rewrite <- (after_done (loopFiles big S real clk bin out fuel 0 st')). apply after_eq; [apply erase_loop|]. intros st2 f2. fold_next. unfold cint64. rewrite D. fold_next. apply erase_silently.
Qed.
End Erase.
Section Main.
Variable parse : list ascii -> option node.
Variable as_int cell_int : list ascii -> option Z.
Variable as_dbl cell_dbl : list ascii -> option f64.
Variable as_bool : list ascii -> option bool.
Variable fsin fcos : f64 -> f64.
Variable M_PI : f64.
Variable big dbg : bool.
Notation particlesS := (particlesSay cell_int cell_dbl dbg).
Notation loadS := (loadSay parse as_int as_dbl as_bool cell_int cell_dbl dbg).
Notation loadA := (load parse as_int as_dbl as_bool cell_int cell_dbl dbg).
Notation mainS := (mainSay parse as_int as_dbl as_bool cell_int cell_dbl fsin fcos M_PI big dbg).
Notation prog := (program parse as_int as_dbl as_bool cell_int cell_dbl fsin fcos M_PI big dbg).
Lemma erase_particles rho p fs : erase (particlesS rho p) fs = (fs, loadParticles cell_int cell_dbl dbg rho fs p).
Proof.
  unfold particlesSay, loadParticles, erase. cbv zeta. destruct (text_eqb _ _); [reflexivity|]. destruct (text_eqb _ _); [destruct (fs p); reflexivity|]. destruct (text_eqb _ _); [destruct (fs p); reflexivity|reflexivity].
Qed.
Lemma erase_load setting out fs : erase (loadS setting out) fs = loadA setting out fs.
Proof.
  unfold loadSay, load. unfold erase. match goal with |- context [next ?m ?k fs] => pose proof (erase_next m k fs) as E; unfold erase at 1 in E; etransitivity; [exact E|]; clear E end.
  unfold after at 1. rewrite erase_silently. unfold ret at 1. rewrite after_ret. destruct (yaml_file parse fs setting) as [y|u| |c| |]; try reflexivity.
  fold_next. rewrite after_ret. destruct (loadSettingYaml _ _ _ _ _ _) as [[[s pp] cores]|u| |c| |]; try reflexivity.
  rewrite erase_next. apply after_eq; [apply erase_particles|]. intros [t ps] f. rewrite erase_next. apply after_eq; [apply erase_or|]. intros _ f2. rewrite erase_next. apply after_eq; [apply erase_or|]. intros _ f3. apply erase_silently.
Qed.
Lemma erase_options (flip : bool) (setting out : option path) (fs : filesystem) :
  erase (if flip then next (outputOption out) (fun _ => settingOption setting) else next (settingOption setting) (fun _ => outputOption out)) fs =
  (fs, match setting, out with
       | Some s, _ => match fs s, out with None, _ => Exit (-1) | _, Some o => match fs o with Some Folder => Ok tt | _ => Exit (-1) end | _, None => Ok tt end
       | None, Some o => match fs o with Some Folder => Ok tt | _ => Exit (-1) end
       | None, None => Ok tt
       end).
Proof.
  destruct flip, setting as [s|], out as [o|]; unfold erase, next, settingOption, outputOption, there, print, stop_with;
    try destruct (fs s) as [e|] eqn:Es; try destruct (fs o) as [[b|]|] eqn:Eo; cbn; rewrite ?Es, ?Eo; reflexivity.
Qed.
Lemma erase_main S real fin clk fuel flip setting out fs : in_int64 (fin - real) = true ->
  erase (mainS S real fin clk fuel flip (Some setting) (Some out)) fs = prog S real clk fuel setting out fs.
Proof.
  intros D. unfold mainSay, program. rewrite erase_next. unfold after at 1. rewrite erase_options. destruct (fs setting) as [e|]; [|reflexivity]. destruct (fs out) as [[b|]|]; try reflexivity.
  rewrite erase_next. apply after_eq; [apply erase_load|]. intros i f. rewrite erase_next. apply after_eq; [apply erase_silently|]. intros _ f2. rewrite erase_next. apply after_eq; [apply erase_or|].
  intros m f3. apply erase_run, D.
Qed.

(** ** What is printed before the program stops *)
Definition calm (w : list message) : Prop := Forall (fun e => ~ error e) w.
Definition tells {A} (R : message -> Prop) (r : filesystem * list message * outcome A) : Prop :=
  let '(_, w, o) := r in
  match o with Exit c => c = -1 /\ exists w0 e, w = w0 ++ [e] /\ calm w0 /\ error e /\ R e | _ => calm w end.
Lemma tells_next {A B} R (m : say A) (k : A -> say B) fs : tells R (m fs) -> (forall f w a, m fs = (f, w, Ok a) -> tells R (k a f)) -> tells R (next m k fs).
Proof.
  unfold next. intros T K. destruct (m fs) as [[f w] [a|u| |c| |]]; try exact T. specialize (K f w a eq_refl). cbn in T. destruct (k a f) as [[f2 w2] [b|u| |c| |]]; cbn in K |- *;
    try (apply Forall_app; auto; fail). destruct K as (-> & w0 & e & -> & C & E & H). split; [reflexivity|]. exists (w ++ w0), e. rewrite app_assoc. split; [reflexivity|]. split; [apply Forall_app; auto|auto].
Qed.
Lemma tells_silently {A} R (a : act A) fs : (forall f c, a fs <> (f, Exit c)) -> tells R (silently a fs).
Proof. unfold silently. intros H. destruct (a fs) as [f [x|u| |c| |]]; cbn; try constructor; exfalso; exact (H f c eq_refl). Qed.
Lemma tells_ret {A} R (o : outcome A) fs : can (fun b => forall c, b <> SE c) o -> tells R (silently (ret o) fs).
Proof. intros H. apply tells_silently. intros f c [= _ E]. subst o. exact (H (SE c) eq_refl c eq_refl). Qed.
Lemma tells_or {A} (R : message -> Prop) e (a : act A) fs : error e -> (forall f c, a fs = (f, Exit c) -> c = -1 /\ R e) -> tells R (or_says e a fs).
Proof. unfold or_says. intros X H. destruct (a fs) as [f [x|u| |c| |]]; cbn; try constructor; destruct (H f c eq_refl) as (-> & K); auto. exists [], e. repeat split; auto. constructor. Qed.
Lemma tells_print R l fs : calm l -> tells R (print l fs). Proof. intros H. exact H. Qed.
Lemma tells_stop {A} (R : message -> Prop) e fs : error e -> R e -> tells R (@stop_with A e fs).
Proof. intros H K. split; [reflexivity|]. exists [], e. split; [reflexivity|]. split; [constructor|auto]. Qed.
Lemma tells_weaken {A} (R R' : message -> Prop) (r : filesystem * list message * outcome A) : tells R r -> (forall e, R e -> R' e) -> tells R' r.
Proof. destruct r as [[f w] [a|u| |c| |]]; cbn; auto. intros (-> & w0 & e & H1 & H2 & H3 & H4) K. split; [reflexivity|]. exists w0, e. auto. Qed.
Lemma calm_events l : calm (map Event l).
Proof. apply Forall_forall. intros e H. apply in_map_iff in H as (x & <- & _). exact (fun F => F). Qed.
Lemma erased {A} (m : say A) fs f w o : m fs = (f, w, o) -> erase m fs = (f, o). Proof. unfold erase. intros ->. reflexivity. Qed.

(** *** a step *)
Definition willing : @solver F64 := fun n _ _ => Some (repeat (@nofZ F64 0) n).
Lemma willing_sized : sized willing. Proof. intros n ts b x [= <-]. apply repeat_length. Qed.
Lemma step_exits S m c : sound m -> sized S -> stepForward S m = Exit c -> c = -1 /\ (exists det q, m_calc m = Implicit det q) /\ exists n ts b, S n ts b = None.
Proof.
  intros SD SZ H. destruct (C51_lemma S m SD SZ) as [G|(ns & ps & F & _)].
  - destruct G as [(x & G)|[(D & G)|(Q & F & G)]]; rewrite G in H; try discriminate. injection H as <-. auto.
  - pose proof (@s_search F64 ns ps) as C. destruct (setNeighbors ns ps) as [x|u| |c'| |]; cbn [fails_like] in F; [contradiction|..]; rewrite F in H; try discriminate.
    destruct (C (SE c') eq_refl) as [(u & X)|X]; discriminate.
Qed.
Lemma tells_step S m fs : sound m -> sized S -> tells (fun e => e = SolverFailed /\ (exists det q, m_calc m = Implicit det q) /\ exists n ts b, S n ts b = None) (stepSay S m fs).
Proof.
  intros SD SZ. unfold stepSay. assert (W : forall c, stepForward willing m <> Exit c).
  { intros c H. destruct (step_exits _ _ _ SD willing_sized H) as (_ & _ & n & ts & b & X). discriminate X. }
  apply tells_next; [apply tells_ret; intros b Hb c ->; destruct (stepMove m) eqn:E; try discriminate Hb; eapply W; unfold stepForward; rewrite E; reflexivity|].
  intros f w [ns ps] E1. injection E1 as <- <- E1. apply tells_next; [apply tells_print, calm_events|]. intros f w [] [= <- <-].
  apply tells_next; [apply tells_ret; intros b Hb c ->; destruct (stepCollide m ns ps) eqn:E; try discriminate Hb; eapply W; unfold stepForward; rewrite E1; cbn [bind]; rewrite E; reflexivity|].
  intros f w [n2 p2] E2. injection E2 as <- <- E2. apply tells_next; [apply tells_print, calm_events|]. intros f w [] [= <- <-].
  apply tells_next; [apply tells_ret; intros b Hb c ->; destruct (@s_search F64 n2 p2 _ Hb) as [(u & X)|X]; discriminate|].
  intros f w x E3. injection E3 as <- <- E3. apply tells_next; [apply tells_print, calm_events|]. intros f w [] [= <- <-].
  apply tells_next. { apply tells_or; [exact I|]. intros f c [= _ E]. destruct (step_exits _ _ _ SD SZ E) as (-> & H). auto. }
  intros f w m' E4. apply tells_next; [apply tells_print|]. { destruct (nlt _ _); [apply (calm_events [CourantError _])|constructor]. }
  intros f' w' [] _. apply tells_ret, can_ok.
Qed.
Lemma can_no_exit {A} (o : outcome A) : can (fun b => exists u, b = SU u) o -> can (fun b => forall c, b <> SE c) o.
Proof. intros H. eapply can_weaken; [exact H|]. intros b (u & ->) c. discriminate. Qed.
Lemma can_report real clock (st : @sim F64) : can (fun b => exists u, b = SU u) (reportLog real clock st).
Proof.
  assert (C64 : forall z, can (fun b => exists u, b = SU u) (cint64 z)) by (intros z; unfold cint64; destruct (in_int64 z); [apply can_ok|apply can_undef; eauto]).
  assert (T64 : forall x : f64, can (fun b => exists u, b = SU u) (@to_int64 F64 x)) by (intros x; unfold to_int64; destruct (@ntrunc F64 x); [destruct (in_int64 _)|]; first [apply can_ok|apply can_undef; eauto]).
  unfold reportLog. apply can_bind; [|intros [? ?] _; destruct clock; apply can_ok]. unfold timeStepReport. destruct clock as [a c]. apply can_bind; [apply C64|intros]. cbv zeta. apply can_bind.
  - destruct (_ =? 0); [apply can_ok|]. cbv zeta. apply can_bind; [apply T64|intros]. apply can_bind; [apply C64|intros; apply can_ok].
  - intros. apply can_bind; [apply C64|intros; apply can_ok].
Qed.
Lemma can_save (st : @sim F64) : can (fun b => exists u, b = SU u) (save st).
Proof. unfold save. apply can_bind; [apply can_cint|intros; apply can_ok]. Qed.
Lemma tells_iteration S real clock st fs : sound (si_mps st) -> sized S ->
  tells (fun e => e = SolverFailed /\ (exists det q, m_calc (si_mps st) = Implicit det q) /\ exists n ts b, S n ts b = None) (iterationSay S real clock st fs).
Proof.
  intros SD SZ. unfold iterationSay. apply tells_next; [apply tells_step; auto|]. intros f w m _. apply tells_next; [apply tells_ret, can_no_exit, can_cint|]. intros f1 w1 k _. cbv zeta.
  apply tells_next; [apply tells_ret, can_no_exit, can_report|]. intros f2 w2 r _. apply tells_next; [apply tells_print, (calm_events [r])|]. intros f3 w3 [] _. apply tells_ret. destruct (saveCondition _); [apply can_no_exit, can_save|apply can_ok].
Qed.

(** *** files *)
Section Out.
Variables (bin : bool) (out : path) (fs0 : filesystem).
Definition barred (e : message) : Prop := exists kind k, e = CannotWrite (outputPath out kind k) /\ In kind kinds /\ 0 <= k /\ fs0 (outputPath out kind k) = Some Folder.
Lemma tells_write f kind k text : tidy out fs0 f -> In kind kinds -> 0 <= k -> can (fun b => exists u, b = SU u) text -> tells barred (writeSay (outputPath out kind k) text f).
Proof.
  intros T K P X. apply tells_or; [exact I|]. intros f' c H. unfold write_file in H. rewrite outputPath_parent, (proj1 T kind K) in H. destruct (f (outputPath out kind k)) as [[b|]|] eqn:E.
  2:{ injection H as _ <-. split; [reflexivity|]. exists kind, k. split; [reflexivity|]. split; [exact K|]. split; [exact P|]. exact (proj2 T _ _ E). }
  all: destruct text as [t|u| |d| |]; try discriminate H; destruct (X (SE d) eq_refl) as (u & Y); discriminate Y.
Qed.
Lemma tells_files o f : tidy out fs0 f -> 0 <= o_number o -> tells barred (saveFilesSay big bin out o f).
Proof.
  intros T P. destruct in_kinds as (K1 & K2 & K3). unfold saveFilesSay. cbv zeta. apply tells_next; [apply tells_write; auto; apply can_ok|]. intros f1 w1 [] H1. unfold writeSay in H1. apply erased in H1. rewrite erase_or in H1.
  apply (write_stop out fs0) in H1 as (T1 & _); auto. apply tells_next; [apply tells_write; auto; apply can_toVtu|]. intros f2 w2 [] H2. unfold writeSay in H2. apply erased in H2. rewrite erase_or in H2.
  apply (write_stop out fs0) in H2 as (T2 & _); auto. apply tells_write; auto. apply can_ok.
Qed.
Lemma tells_all l : forall f, tidy out fs0 f -> Forall (fun o : @output F64 => 0 <= o_number o) l -> tells barred (saveAllSay big bin out l f).
Proof.
  induction l as [|o l IH]; intros f T P; cbn [saveAllSay]; [apply tells_ret, can_ok|]. inversion P; subst. apply tells_next; [apply tells_files; auto|]. intros f1 w1 [] H. apply erased in H. rewrite erase_files in H.
  apply (files_stop big out fs0) in H as (T1 & _); auto.
Qed.
Variables (S : @solver F64) (real fin : Z) (clk : nat -> Z * Z) (st0 : @sim F64).
Hypothesis F0 : fresh st0.
Hypothesis SD0 : sound (si_mps st0).
Hypothesis SZ : sized S.
Definition run_cause (e : message) : Prop := barred e \/ (e = SolverFailed /\ (exists det q, m_calc (si_mps st0) = Implicit det q) /\ exists n ts b, S n ts b = None).
Lemma tells_loop : forall fuel k st f, tidy out fs0 f -> reached S real clk st0 k st -> tells run_cause (loopSay big S real clk bin out fuel k st f).
Proof.
  induction fuel as [|fuel IH]; intros k st f T R; cbn [loopSay]; (destruct (nlt (si_time st) (si_end st)) eqn:L; [|apply tells_ret, can_ok]).
  - apply tells_ret, can_diverge. intros c. discriminate.
  - destruct (reached_inv _ _ _ _ _ _ F0 R) as (_ & _ & _ & M & _). destruct (steps_static _ _ _ _ M) as (_ & _ & EC & _). pose proof (steps_sound _ _ _ _ M SD0) as SD1.
    apply tells_next. { eapply tells_weaken; [apply tells_iteration; auto|]. intros e (H1 & H2 & H3). rewrite EC in H2. right. auto. }
    intros f1 w1 st' H1. apply erased in H1. rewrite erase_iteration in H1. injection H1 as <- H1. assert (R' := reached_S _ _ _ _ _ _ _ R L H1). destruct (iteration_adds _ _ _ _ _ H1) as (l & A).
    pose proof (files_bound _ _ _ _ _ _ F0 R) as FB. assert (P0 : 0 <= si_file st) by lia. destruct (adds_nonneg _ _ _ P0 A) as (P1 & P2). rewrite (news_of _ _ _ A).
    apply tells_next; [eapply tells_weaken; [apply tells_all; auto|intros; left; auto]|]. intros f2 w2 [] H2. apply erased in H2. rewrite erase_all in H2. apply (saveAll_stop big out fs0) in H2 as (T2 & _); auto.
Qed.
Lemma tells_run fuel f : tidy out fs0 f -> tells run_cause (runSay big S real fin clk bin out fuel st0 f).
Proof.
  intros T. unfold runSay. apply tells_next; [apply tells_print, (calm_events [Start])|]. intros f1 w1 [] [= <- <-]. apply tells_next; [apply tells_ret, can_no_exit, can_save|]. intros f2 w2 st' H2. injection H2 as <- <- H2.
  assert (R' := reached_0 S real clk _ _ H2). destruct (save_adds _ _ H2) as (l & A). assert (P0 : 0 <= si_file st0) by (rewrite (proj1 (proj2 (proj2 F0))); lia). destruct (adds_nonneg _ _ _ P0 A) as (P1 & P2). rewrite (news_of _ _ _ A).
  apply tells_next; [eapply tells_weaken; [apply tells_all; auto|intros; left; auto]|]. intros f3 w3 [] H3. apply erased in H3. rewrite erase_all in H3. apply (saveAll_stop big out fs0) in H3 as (T3 & _); auto.
  apply tells_next; [apply tells_loop; auto|]. intros f4 w4 st2 _. apply tells_next. { apply tells_ret, can_no_exit. unfold cint64. destruct (in_int64 _); [apply can_ok|apply can_undef; eauto]. }
  intros f5 w5 d _. apply tells_next; [apply tells_print, (calm_events [End _])|]. intros f6 w6 [] _. apply tells_ret, can_ok.
Qed.
End Out.

(** *** loading *)
Lemma tells_particles rho p fs : tells (fun e =>
    e = Unsupported (extension p) /\ ~ In (extension p) formats \/
    (exists kind, e = CannotRead kind p /\ fs p = None /\ extension p = lit ("." ++ kind) /\ In kind ["prof"; "vtu"]%string) \/
    e = BinaryVtu p /\ extension p = lit ".vtu" /\ exists c, fs p = Some c /\ occurs (lit "<AppendedData") (bytes_of c)) (particlesS rho p fs).
Proof.
  unfold particlesSay. cbv zeta. destruct (text_eqb (extension p) (lit ".csv")) eqn:E1.
  { apply tells_ret. destruct (fs p) as [e|]; [|apply can_throw; discriminate]. eapply can_weaken; [apply can_csv|]. intros b [(u & ->)| ->] c; discriminate. }
  destruct (text_eqb (extension p) (lit ".prof")) eqn:E2.
  { apply CsvFacts.text_eqb_iff in E2. destruct (fs p) as [e|]; [apply tells_ret, can_no_exit, can_prof|]. apply tells_stop; [exact I|]. right. left. exists "prof"%string. cbn [In]. auto 6. }
  destruct (text_eqb (extension p) (lit ".vtu")) eqn:E3.
  { apply CsvFacts.text_eqb_iff in E3. destruct (fs p) as [e|]; [|apply tells_stop; [exact I|]; right; left; exists "vtu"%string; cbn [In]; auto 6].
    apply tells_or; [exact I|]. intros f c [= _ E]. pose proof (can_vtu dbg rho (bytes_of e) (SE c)) as C. rewrite E in C. destruct (C eq_refl) as [X|(X & Y)]; [discriminate|]. injection X as ->. split; [reflexivity|]. right. right. eauto 6. }
  apply tells_stop; [exact I|]. left. split; [reflexivity|]. unfold formats. cbn [map In]. intros [H|[H|[H|[]]]]; symmetry in H; apply CsvFacts.text_eqb_iff in H; congruence.
Qed.
Variables (S : @solver F64) (real fin : Z) (clk : nat -> Z * Z) (fuel : nat) (fs : filesystem).
Definition input_of (setting : path) (s : @settings F64) (pp : path) : Prop :=
  exists sb y cores, fs setting = Some (File sb) /\ parse sb = Some y /\ @loadSettingYaml F64 as_int as_dbl as_bool dbg (parent setting) y = Ok (s, pp, cores).
Definition input_cause (setting out : path) (e : message) : Prop := exists s pp, input_of setting s pp /\ wrong_input S fs setting out pp s e.
Lemma tells_load setting out : tells (input_cause setting out) (loadS setting out fs).
Proof.
  unfold loadSay. apply tells_next. { apply tells_ret. unfold yaml_file. destruct (fs setting) as [[b|]|]; [destruct (parse b); [apply can_ok|]|..]; apply can_throw; discriminate. }
  intros f w y H1. injection H1 as <- _ H1. unfold yaml_file in H1. destruct (fs setting) as [[sb|]|] eqn:Es; try discriminate H1. destruct (parse sb) as [y'|] eqn:EP; [|discriminate H1]. injection H1 as ->.
  apply tells_next. { apply tells_ret. eapply can_weaken; [apply can_settings|]. intros b <- c. discriminate. }
  intros f w' [[s pp] cores] H2. injection H2 as <- _ H2. assert (IO : input_of setting s pp) by (exists sb, y, cores; auto).
  apply tells_next. { eapply tells_weaken; [apply tells_particles|]. intros e [(-> & H)|[(kind & -> & H)|(-> & H)]]; exists s, pp; (split; [exact IO|]); cbn [wrong_input]; auto. }
  intros f w2 [t ps] H3. apply erased in H3. rewrite erase_particles in H3. injection H3 as <- H3.
  apply tells_next. { apply tells_or; [exact I|]. intros f1 c C. destruct (copy_stop _ _ _ _ _ C _ eq_refl) as [(X & F)|(X & _)]; [|discriminate]. injection X as ->. split; [reflexivity|]. exists s, pp. split; [exact IO|]. left. auto. }
  intros f w1 [] C. apply erased in C. unfold copySay in C. rewrite erase_or in C. apply copy_inv in C as [(_ & [(F & _)|(F & _)])|(_ & EC & _ & c & EN & ->)]; [discriminate F|discriminate F|].
  apply tells_next. 2:{ intros. apply tells_ret, can_ok. }
  apply tells_or; [exact I|]. intros f1 c' C. destruct (copy_stop _ _ _ _ _ C _ eq_refl) as [(X & F)|(X & _)]; [|discriminate]. injection X as ->. split; [reflexivity|]. exists s, pp. split; [exact IO|]. right. split; [reflexivity|].
  destruct (path_dec (out ++ [filename pp]) (out ++ [filename setting])) as [Q|Q]; [right; apply app_inv_head in Q; injection Q as Q; exact Q|left]. rewrite put_other in F by exact Q. exact F.
Qed.
Hypothesis SZ : sized S.
Lemma tells_options (flip : bool) (setting out : option path) :
  tells (wrong_arguments fs setting out) ((if flip then next (outputOption out) (fun _ => settingOption setting) else next (settingOption setting) (fun _ => outputOption out)) fs).
Proof.
  assert (TS : tells (wrong_arguments fs setting out) (settingOption setting fs)).
  { unfold settingOption, there. destruct setting as [p|]; [|constructor]. destruct (fs p) eqn:E; [constructor; [exact (fun F => F)|constructor]|]. apply tells_stop; [exact I|]. cbn. auto. }
  assert (TO : tells (wrong_arguments fs setting out) (outputOption out fs)).
  { unfold outputOption. destruct out as [p|]; [|constructor]. destruct (fs p) as [[b|]|] eqn:E.
    - apply tells_next; [apply tells_print; constructor; [exact (fun F => F)|constructor]|]. intros f w a [= <- _]. apply tells_stop; [exact I|]. cbn. right. right. eauto.
    - constructor; [exact (fun F => F)|constructor].
    - apply tells_stop; [exact I|]. cbn. auto. }
  assert (KS : forall f w, settingOption setting fs = (f, w, Ok tt) -> f = fs).
  { unfold settingOption, print, stop_with. destruct setting; [destruct (there _ _)|]; intros f w H; try discriminate H; injection H as <- _; reflexivity. }
  assert (KO : forall f w, outputOption out fs = (f, w, Ok tt) -> f = fs).
  { unfold outputOption, print, stop_with, next. destruct out as [p|]; [destruct (fs p) as [[b|]|]|]; intros f w H; try discriminate H; injection H as <- _; reflexivity. }
  destruct flip; apply tells_next; auto; intros f w [] H; [apply KO in H|apply KS in H]; subst f; assumption.
Qed.
Lemma tells_main (flip : bool) (setting out : option path) :
  tells (fun e => wrong_arguments fs setting out e \/ exists st o, setting = Some st /\ out = Some o /\ input_cause st o e) (mainS S real fin clk fuel flip setting out fs).
Proof.
  unfold mainSay. apply tells_next; [eapply tells_weaken; [apply tells_options|auto]|]. intros f w [] H0. apply erased in H0. rewrite erase_options in H0. destruct setting as [st|]; [|apply tells_stop; [exact I|left; cbn; auto]].
  destruct out as [o|]; [|apply tells_stop; [exact I|left; cbn; auto]]. injection H0 as <- H0. destruct (fs st) as [es|] eqn:Es; [|discriminate]. destruct (fs o) as [[b|]|] eqn:Eo; try discriminate. clear H0.
  apply (tells_weaken (input_cause st o)). 2:{ intros e H. right. exists st, o. auto. }
  apply tells_next; [apply tells_load|]. intros f1 w1 i L. apply erased in L. rewrite erase_load in L.
  apply load_ok in L as (sb & y & pp & cores & pb & S1 & P1 & L1 & Q1 & _ & _ & _ & _ & _ & EF). assert (IO : input_of st (i_settings i) pp) by (exists sb, y, cores; auto).
  assert (EF' : forall p, fs p = f1 p \/ (exists c, f1 p = Some (File c)) /\ (p = o ++ [filename st] \/ p = o ++ [filename pp])).
  { intros p. rewrite EF. destruct (path_dec p (o ++ [filename pp])) as [->|D1]; [right; rewrite put_same; eauto|]. rewrite put_other by exact D1.
    destruct (path_dec p (o ++ [filename st])) as [->|D2]; [right; rewrite put_same; eauto|]. rewrite put_other by exact D2. auto. }
  assert (O1 : f1 o = Some Folder). { destruct (EF' o) as [E|(_ & [E|E])]; [congruence|exfalso; exact (child_neq _ _ E)..]. }
  apply tells_next. { apply tells_silently. intros f2 c C. destruct (proj1 (saver_stop _ _ _ _ O1 C) _ eq_refl) as (X & _). discriminate. }
  intros f2 w2 [] C. apply erased in C. rewrite erase_silently in C. destruct (proj2 (saver_stop _ _ _ _ O1 C) eq_refl) as (T1 & T2).
  assert (T : tidy o fs f2).
  { split; [exact T1|]. intros kind k F. rewrite T2 in F by (intros n E; symmetry in E; exact (outputPath_deep _ _ _ _ (eq_sym E))).
    destruct (EF' (outputPath o kind k)) as [Q|((c & Q) & _)]; congruence. }
  apply tells_next.
  { apply tells_or; [exact I|]. intros f3 c [= _ R]. pose proof (can_factory fsin fcos M_PI (i_settings i) (i_particles i) (SE c)) as CF. rewrite R in CF. destruct (CF eq_refl) as [(E & _)|[(E & A)|A]]; [discriminate| |].
    - injection E as ->. split; [reflexivity|]. exists (i_settings i), pp. split; [exact IO|]. cbn. auto.
    - destruct (can_searcher _ _ _ _ A) as [(u & E)|E]; discriminate. }
  intros f3 w3 m R. apply erased in R. rewrite erase_or in R. injection R as <- R. destruct (factory_asserts _ _ _ _ _ _ R) as (EM & QA). assert (MD := loaded_made _ _ _ _ _ _ _ _ Q1).
  destruct (factory_sound _ _ _ _ _ _ R (made_indexed _ MD) (made_rest _ MD)) as (SD & EP & _). pose proof (fresh_new (i_start i) (i_settings i) m) as Fr.
  eapply tells_weaken; [exact (tells_run (s_vtkBinary (i_settings i)) o fs S real fin clk _ Fr SD SZ fuel f2 T)|]. intros e H. exists (i_settings i), pp. split; [exact IO|]. destruct H as [(kind & k & -> & H1 & H2 & H3)|(-> & (det & q & Q) & H)]; cbn [wrong_input].
  - exists kind, k. auto.
  - split; [exact (proj1 (QA _ _ Q))|exact H].
Qed.

(** ** What a completed run has printed *)
Lemma next_ok {A B} (m : say A) (k : A -> say B) f f' w b : next m k f = (f', w, Ok b) -> exists f1 w1 w2 a, m f = (f1, w1, Ok a) /\ k a f1 = (f', w2, Ok b) /\ w = w1 ++ w2.
Proof.
  unfold next. destruct (m f) as [[f1 w1] [a|u| |c| |]]; try discriminate. destruct (k a f1) as [[f2 w2] o] eqn:E. intros [= <- <- ->]. eauto 8.
Qed.
Lemma ret_ok {A} (o : outcome A) f f' x : ret o f = (f', Ok x) -> f' = f /\ o = Ok x.
Proof. unfold ret. intros [= <- ->]. auto. Qed.
Lemma silently_ok {A} (a : act A) f f' w x : silently a f = (f', w, Ok x) -> w = [] /\ a f = (f', Ok x).
Proof. unfold silently. destruct (a f). intros [= <- <- ->]. auto. Qed.
Lemma or_ok {A} e (a : act A) f f' w x : or_says e a f = (f', w, Ok x) -> w = [] /\ a f = (f', Ok x).
Proof. unfold or_says. destruct (a f) as [f1 o]. intros [= <- <- ->]. auto. Qed.
Lemma print_ok l f f' w x : print l f = (f', w, Ok x) -> w = l /\ f' = f.
Proof. intros [= <- <- _]. auto. Qed.
Ltac peel H := apply next_ok in H as (?f & ?w & ?w & ?a & ?H & H & ->).
Lemma step_says m f f' w m' : stepSay S m f = (f', w, Ok m') -> exists l, w = map Event l /\ stepLog S m = Ok (m', l).
Proof.
  intros H. unfold stepSay in H. apply next_ok in H as (f1 & w1 & w2 & [ns ps] & H1 & H & ->). apply silently_ok in H1 as (-> & H1). apply ret_ok in H1 as (-> & H1).
  apply next_ok in H as (f3 & w3 & w4 & [] & H3 & H & ->). apply print_ok in H3 as (-> & ->). apply next_ok in H as (f5 & w5 & w6 & [n2 p2] & H5 & H & ->). apply silently_ok in H5 as (-> & H5). apply ret_ok in H5 as (-> & H5).
  apply next_ok in H as (f7 & w7 & w8 & [] & H7 & H & ->). apply print_ok in H7 as (-> & ->). apply next_ok in H as (f9 & w9 & w10 & x & H9 & H & ->). apply silently_ok in H9 as (-> & H9). apply ret_ok in H9 as (-> & H9).
  apply next_ok in H as (f11 & w11 & w12 & [] & H11 & H & ->). apply print_ok in H11 as (-> & ->). apply next_ok in H as (f13 & w13 & w14 & m2 & H13 & H & ->). apply or_ok in H13 as (-> & H13). apply ret_ok in H13 as (-> & H13).
  apply next_ok in H as (f15 & w15 & w16 & [] & H15 & H & ->). apply print_ok in H15 as (-> & ->). apply silently_ok in H as (-> & H). injection H as <- <-.
  unfold stepLog. rewrite H1. cbn [bind]. rewrite H5. cbn [bind]. rewrite H13. cbn [bind]. eexists. split; [|reflexivity]. rewrite !map_app, app_nil_r. cbn [List.app]. rewrite <- ?app_assoc. destruct (nlt _ _); reflexivity.
Qed.
Lemma iteration_says clock st f f' w st' : iterationSay S real clock st f = (f', w, Ok st') -> exists l, w = map Event l /\ iterationLog S real clock st = Ok (st', l).
Proof.
  intros H. unfold iterationSay in H. apply next_ok in H as (f1 & w1 & w2 & m & H1 & H & ->). apply step_says in H1 as (l & -> & H1).
  apply next_ok in H as (f3 & w3 & w4 & k & H3 & H & ->). apply silently_ok in H3 as (-> & H3). apply ret_ok in H3 as (-> & H3). cbv zeta in H. apply next_ok in H as (f5 & w5 & w6 & r & H5 & H & ->). apply silently_ok in H5 as (-> & H5). apply ret_ok in H5 as (-> & H5).
  apply next_ok in H as (f7 & w7 & w8 & [] & H7 & H & ->). apply print_ok in H7 as (-> & ->). apply silently_ok in H as (-> & H). apply ret_ok in H as (-> & H).
  unfold iterationLog. rewrite H1. cbn [bind]. rewrite H3. cbn [bind]. rewrite H5. cbn [bind]. rewrite H. cbn [bind]. exists (l ++ [r]). split; [rewrite map_app; reflexivity|reflexivity].
Qed.
Lemma all_says bin out : forall l f f' w x, saveAllSay big bin out l f = (f', w, Ok x) -> w = [].
Proof.
  induction l as [|o l IH]; intros f f' w x H; cbn [saveAllSay] in H; [apply silently_ok in H as (-> & _); reflexivity|]. apply next_ok in H as (f1 & w1 & w2 & [] & H1 & H & ->). apply IH in H as ->.
  unfold saveFilesSay in H1. cbv zeta in H1. apply next_ok in H1 as (f3 & w3 & w4 & [] & H3 & H1 & ->). apply next_ok in H1 as (f5 & w5 & w6 & [] & H5 & H1 & ->). apply or_ok in H3 as (-> & _), H5 as (-> & _), H1 as (-> & _). reflexivity.
Qed.
Lemma loop_says bin out : forall n k st f f' w st', loopSay big S real clk bin out n k st f = (f', w, Ok st') -> exists l, w = map Event l /\ loopLog S real clk n k st = Ok (st', l).
Proof.
  induction n as [|n IH]; intros k st f f' w st' H; cbn [loopSay loopLog] in *; destruct (nlt (si_time st) (si_end st)); try (apply silently_ok in H as (-> & H); injection H as <- <-; exists []; auto; fail).
  { apply silently_ok in H as (_ & H). discriminate. }
  apply next_ok in H as (f1 & w1 & w2 & s1 & H1 & H & ->). apply iteration_says in H1 as (l1 & -> & H1). apply next_ok in H as (f3 & w3 & w4 & [] & H3 & H & ->). apply all_says in H3 as ->. apply IH in H as (l2 & -> & H).
  rewrite H1. cbn [bind]. rewrite H. cbn [bind]. exists (l1 ++ l2). split; [rewrite map_app; reflexivity|reflexivity].
Qed.
Lemma run_says bin out st f f' w st' : runSay big S real fin clk bin out fuel st f = (f', w, Ok st') -> exists l, w = map Event l /\ runLog S real fin clk fuel st = Ok (st', l).
Proof.
  intros H. unfold runSay in H. apply next_ok in H as (f1 & w1 & w2 & [] & H1 & H & ->). apply print_ok in H1 as (-> & ->). apply next_ok in H as (f3 & w3 & w4 & s1 & H3 & H & ->). apply silently_ok in H3 as (-> & H3). apply ret_ok in H3 as (-> & H3).
  apply next_ok in H as (f5 & w5 & w6 & [] & H5 & H & ->). apply all_says in H5 as ->. apply next_ok in H as (f7 & w7 & w8 & s2 & H7 & H & ->). apply loop_says in H7 as (l & -> & H7).
  apply next_ok in H as (f9 & w9 & w10 & d & H9 & H & ->). apply silently_ok in H9 as (-> & H9). apply ret_ok in H9 as (-> & H9). apply next_ok in H as (f11 & w11 & w12 & [] & H11 & H & ->). apply print_ok in H11 as (-> & ->). apply silently_ok in H as (-> & H). injection H as <- <-.
  unfold runLog. rewrite H3. cbn [bind]. rewrite H7. cbn [bind]. rewrite H9. cbn [bind]. eexists. split; [|reflexivity]. cbn [map List.app]. rewrite map_app. reflexivity.
Qed.
Lemma main_says (flip : bool) (setting out : option path) fs' w st' : mainS S real fin clk fuel flip setting out fs = (fs', w, Ok st') ->
  exists se o s pp t ps m l, setting = Some se /\ out = Some o /\ input_of se s pp /\ loadParticles cell_int cell_dbl dbg (s_rho0 s) fs pp = Ok (t, ps) /\ @factoryCreate F64 fsin fcos M_PI s ps = Ok m /\
    w = headers flip se o ++ map Event l /\ runLog S real fin clk fuel (newSim t s m) = Ok (st', l).
Proof.
  intros H. unfold mainSay in H. apply next_ok in H as (f1 & w1 & w2 & [] & H1 & H & ->). destruct setting as [se|], out as [o|]; try discriminate H. exists se, o.
  assert (E : f1 = fs /\ w1 = headers flip se o).
  { revert H1. unfold headers. destruct flip; unfold next, settingOption, outputOption, there, print, stop_with; destruct (fs se) eqn:Es; destruct (fs o) as [[b|]|] eqn:Eo; cbn; rewrite ?Es, ?Eo; cbn; intros K; try discriminate K; injection K as <- <-; auto. }
  destruct E as (-> & ->). clear H1. apply next_ok in H as (f3 & w3 & w4 & i & H3 & H & ->).
  assert (E3 : w3 = []).
  { unfold loadSay in H3. apply next_ok in H3 as (f5 & w5 & w6 & y & K & H3 & ->). apply silently_ok in K as (-> & K). apply next_ok in H3 as (f7 & w7 & w8 & [[s pp] cores] & K' & H3 & ->). apply silently_ok in K' as (-> & K').
    apply next_ok in H3 as (f9 & w9 & w10 & [t ps] & P & H3 & ->). apply next_ok in H3 as (f11 & w11 & w12 & [] & C & H3 & ->). apply or_ok in C as (-> & _). apply next_ok in H3 as (f13 & w13 & w14 & [] & C & H3 & ->). apply or_ok in C as (-> & _). apply silently_ok in H3 as (-> & _).
    unfold particlesSay in P. cbv zeta in P. destruct (text_eqb _ _); [apply silently_ok in P as (-> & _); reflexivity|]. destruct (text_eqb _ _); [destruct (f7 pp); [apply silently_ok in P as (-> & _); reflexivity|discriminate]|].
    destruct (text_eqb _ _); [destruct (f7 pp); [apply or_ok in P as (-> & _); reflexivity|discriminate]|discriminate]. }
  subst w3. apply erased in H3. rewrite erase_load in H3. apply load_ok in H3 as (sb & y & pp & cores & pb & S1 & P1 & L1 & Q1 & _).
  apply next_ok in H as (f5 & w5 & w6 & [] & H5 & H & ->). apply silently_ok in H5 as (-> & _). apply next_ok in H as (f7 & w7 & w8 & m & H7 & H & ->). apply or_ok in H7 as (-> & H7). apply ret_ok in H7 as (-> & H7).
  apply run_says in H as (l & -> & H). exists (i_settings i), pp, (i_start i), (i_particles i), m, l. split; [reflexivity|]. split; [reflexivity|]. split; [exists sb, y, cores; auto|]. auto.
Qed.

(** ** The last line *)
Definition at_end {A} (r : filesystem * list message * outcome A) : Prop := let '(_, w, o) := r in (exists x, In (Event (End x)) w) -> exists a, o = Ok a.
Definition no_end {A} (r : filesystem * list message * outcome A) : Prop := let '(_, w, o) := r in forall x, ~ In (Event (End x)) w.
Lemma end_next {A B} (m : say A) (k : A -> say B) f : no_end (m f) -> (forall f1 a, at_end (k a f1)) -> at_end (next m k f).
Proof.
  unfold next. intros N K. destruct (m f) as [[f1 w] [a|u| |c| |]]; try (intros (x & H); exfalso; exact (N x H)). specialize (K f1 a). destruct (k a f1) as [[f2 w2] o]. intros (x & H). apply in_app_or in H as [H|H]; [exfalso; exact (N x H)|]. apply K. eauto.
Qed.
Lemma no_next {A B} (m : say A) (k : A -> say B) f : no_end (m f) -> (forall f1 a, no_end (k a f1)) -> no_end (next m k f).
Proof.
  unfold next. intros N K. destruct (m f) as [[f1 w] [a|u| |c| |]]; try exact N. specialize (K f1 a). destruct (k a f1) as [[f2 w2] o]. intros x H. apply in_app_or in H as [H|H]; [exact (N x H)|exact (K x H)].
Qed.
Lemma no_silently {A} (a : act A) f : no_end (silently a f). Proof. unfold silently. destruct (a f). intros x []. Qed.
Lemma no_or {A} e (a : act A) f : error e -> no_end (or_says e a f).
Proof. intros X. unfold or_says. destruct (a f) as [f1 [b|u| |c| |]]; intros x H; cbn in H; try exact H. destruct H as [->|[]]. exact X. Qed.
Lemma no_stop {A} e f : error e -> no_end (@stop_with A e f). Proof. intros X x [->|[]]. exact X. Qed.
Lemma no_print l f : (forall x, ~ In (Event (End x)) l) -> no_end (print l f). Proof. intros H. exact H. Qed.
Lemma no_warnings ns (ps : list Files.particle) x : ~ In (Event (End x)) (map Event (searchWarnings ns ps)).
Proof. intros H. apply in_map_iff in H as (e & E & H). injection E as ->. unfold searchWarnings, storeWarnings in H. apply in_flat_map in H as (p & _ & H). destruct (is_type p Ghost); [exact H|]. destruct (isInDomain _ _); [exact H|]. destruct H as [H|[]]. discriminate. Qed.
Lemma at_no {A} (r : filesystem * list message * outcome A) : no_end r -> at_end r.
Proof. destruct r as [[f w] o]. intros H (x & K). exfalso. exact (H x K). Qed.
Lemma no_step m f : no_end (stepSay S m f).
Proof.
  unfold stepSay. apply no_next; [apply no_silently|]. intros f1 [ns ps]. apply no_next; [apply no_print, no_warnings|]. intros f2 _. apply no_next; [apply no_silently|]. intros f3 [n2 p2]. apply no_next; [apply no_print, no_warnings|]. intros f4 _.
  apply no_next; [apply no_silently|]. intros f5 _. apply no_next; [apply no_print, no_warnings|]. intros f6 _. apply no_next; [apply no_or; exact I|]. intros f7 m'. apply no_next; [|intros; apply no_silently]. apply no_print. intros x. destruct (nlt _ _); [intros [H|[]]; discriminate|intros []].
Qed.
Lemma report_kind (N : Num) z clock (st : @sim N) r x : reportLog z clock st = Ok r -> r <> End x.
Proof. unfold reportLog. intros H. apply bind_ok in H as ([el re] & _ & H). destruct clock as [a b]. assert (E : match r with End _ => False | _ => True end) by (inversion H; exact I). intros ->. exact E. Qed.
Lemma no_after {A B} (o : outcome A) (k : A -> say B) f : (forall a, o = Ok a -> no_end (k a f)) -> no_end (next (silently (ret o)) k f).
Proof. intros K. unfold next, silently, ret. destruct o as [a|u| |c| |]; try (intros x []). specialize (K a eq_refl). destruct (k a f) as [[f2 w2] o2]. exact K. Qed.
Lemma no_iteration clock st f : no_end (iterationSay S real clock st f).
Proof.
  unfold iterationSay. apply no_next; [apply no_step|]. intros f1 m. apply no_next; [apply no_silently|]. intros f2 k. cbv zeta. apply no_after. intros r E. apply no_next; [|intros; apply no_silently].
  apply no_print. intros x [H|[]]. assert (H' : r = End x) by congruence. exact (report_kind _ _ _ _ _ _ E H').
Qed.
Lemma no_all bin out : forall l f, no_end (saveAllSay big bin out l f).
Proof.
  induction l as [|o l IH]; intros f; cbn [saveAllSay]; [apply no_silently|]. apply no_next; [|intros; apply IH]. unfold saveFilesSay. cbv zeta. apply no_next; [apply no_or; exact I|]. intros. apply no_next; [apply no_or; exact I|]. intros. apply no_or. exact I.
Qed.
Lemma no_loop bin out : forall n k st f, no_end (loopSay big S real clk bin out n k st f).
Proof.
  induction n as [|n IH]; intros k st f; cbn [loopSay]; (destruct (nlt (si_time st) (si_end st)); [|apply no_silently]); [apply no_silently|]. apply no_next; [apply no_iteration|]. intros. apply no_next; [apply no_all|]. intros. apply IH.
Qed.
Lemma end_main (flip : bool) (setting out : option path) : at_end (mainS S real fin clk fuel flip setting out fs).
Proof.
  unfold mainSay. apply end_next.
  { assert (NS : forall f, no_end (settingOption setting f)). { intros f. unfold settingOption. destruct setting; [destruct (there _ _); [intros x [H|[]]; discriminate|apply no_stop; exact I]|intros x []]. }
    assert (NO : forall f, no_end (outputOption out f)). { intros f. unfold outputOption. destruct out as [p|]; [|intros x []]. destruct (f p) as [[b|]|]; [apply no_next; [intros x [H|[]]; discriminate|intros; apply no_stop; exact I]|intros x [H|[]]; discriminate|apply no_stop; exact I]. }
    destruct flip; apply no_next; auto. }
  intros f1 _. destruct setting as [se|], out as [o|]; try (apply at_no, no_stop; exact I). apply end_next.
  { unfold loadSay. apply no_next; [apply no_silently|]. intros f2 y. apply no_next; [apply no_silently|]. intros f3 [[s pp] cores]. apply no_next.
    - unfold particlesSay. cbv zeta. destruct (text_eqb _ _); [apply no_silently|]. destruct (text_eqb _ _); [destruct (f3 pp); [apply no_silently|apply no_stop; exact I]|]. destruct (text_eqb _ _); [destruct (f3 pp); [apply no_or; exact I|apply no_stop; exact I]|apply no_stop; exact I].
    - intros f4 [t ps]. apply no_next; [apply no_or; exact I|]. intros. apply no_next; [apply no_or; exact I|]. intros. apply no_silently. }
  intros f2 i. apply end_next; [apply no_silently|]. intros f3 _. apply end_next; [apply no_or; exact I|]. intros f4 m. unfold runSay. apply end_next; [intros x [H|[]]; discriminate|]. intros f5 _. apply end_next; [apply no_silently|]. intros f6 st'.
  apply end_next; [apply no_all|]. intros f7 _. apply end_next; [apply no_loop|]. intros f8 st2. apply end_next; [apply no_silently|]. intros f9 d. unfold next, print, silently, ret, at_end. eauto.
Qed.
Lemma main_erased (flip : bool) setting out fs' w o : in_int64 (fin - real) = true -> mainS S real fin clk fuel flip (Some setting) (Some out) fs = (fs', w, o) -> prog S real clk fuel setting out fs = (fs', o).
Proof. intros D H. apply erased in H. rewrite erase_main in H by exact D. exact H. Qed.
Lemma main_exit (flip : bool) setting out fs' w c : mainS S real fin clk fuel flip setting out fs = (fs', w, Exit c) ->
  c = -1 /\ exists w0 e, w = w0 ++ [e] /\ Forall (fun e => ~ error e) w0 /\ error e /\
    (wrong_arguments fs setting out e \/
     exists se o sb y s pp cores, setting = Some se /\ out = Some o /\ fs se = Some (File sb) /\ parse sb = Some y /\
       @loadSettingYaml F64 as_int as_dbl as_bool dbg (parent se) y = Ok (s, pp, cores) /\ wrong_input S fs se o pp s e).
Proof.
  intros H. pose proof (tells_main flip setting out) as T. rewrite H in T. destruct T as (E & w0 & e & T1 & T2 & T3 & T4). split; [exact E|]. exists w0, e. split; [exact T1|]. split; [exact T2|]. split; [exact T3|].
  destruct T4 as [T4|(se & o & -> & -> & s & pp & (sb & y & cores & I1 & I2 & I3) & T4)]; [left; exact T4|]. right. exists se, o, sb, y, s, pp, cores. auto 8.
Qed.
Lemma main_silent (flip : bool) setting out fs' w o : mainS S real fin clk fuel flip setting out fs = (fs', w, o) -> (forall c, o <> Exit c) -> Forall (fun e => ~ error e) w.
Proof. intros H N. pose proof (tells_main flip setting out) as T. rewrite H in T. destruct o as [a|u| |c| |]; try exact T. exfalso. exact (N c eq_refl). Qed.
Lemma main_completed (flip : bool) setting out fs' w st' : mainS S real fin clk fuel flip setting out fs = (fs', w, Ok st') ->
  exists se o sb y s pp cores t ps m l, setting = Some se /\ out = Some o /\ fs se = Some (File sb) /\ parse sb = Some y /\
    @loadSettingYaml F64 as_int as_dbl as_bool dbg (parent se) y = Ok (s, pp, cores) /\
    loadParticles cell_int cell_dbl dbg (s_rho0 s) fs pp = Ok (t, ps) /\ @factoryCreate F64 fsin fcos M_PI s ps = Ok m /\
    w = headers flip se o ++ map Event l /\ runLog S real fin clk fuel (newSim t s m) = Ok (st', l).
Proof. intros H. apply main_says in H as (se & o & s & pp & t & ps & m & l & H1 & H2 & (sb & y & cores & I1 & I2 & I3) & H4 & H5 & H6 & H7). exists se, o, sb, y, s, pp, cores, t, ps, m, l. auto 10. Qed.
Lemma main_end (flip : bool) setting out fs' w o x : mainS S real fin clk fuel flip setting out fs = (fs', w, o) -> In (Event (End x)) w -> exists st, o = Ok st.
Proof. intros H K. pose proof (end_main flip setting out) as T. rewrite H in T. apply T. eauto. Qed.
End Main.

(** ** The texts *)
Lemma text_lit l : lit (text l) = l. Proof. apply list_ascii_of_string_of_list_ascii. Qed.
Lemma lit_app a b : lit (a ++ b)%string = lit a ++ lit b.
Proof. induction a as [|c a IH]; [reflexivity|]. unfold lit in *. cbn. now rewrite IH. Qed.
Lemma app_tail {A} (a b t : list A) : a ++ t = b ++ t -> a = b. Proof. apply app_inv_tail. Qed.
Lemma str_head a b c : (a ++ b = a ++ c)%string -> b = c.
Proof. induction a as [|x a IH]; cbn; [auto|]. intros [= H]. auto. Qed.
Lemma str_tail a b t : (a ++ t = b ++ t)%string -> a = b.
Proof. intros H. apply (f_equal lit) in H. rewrite !lit_app in H. apply app_inv_tail in H. exact (lit_inj _ _ H). Qed.
Lemma str_assoc (a b c : string) : ((a ++ b) ++ c = a ++ (b ++ c))%string.
Proof. induction a as [|x a IH]; cbn; [reflexivity|]. now rewrite IH. Qed.
Definition escaped (l : list ascii) : list ascii := flat_map (fun c => if Ascii.eqb c dquote || Ascii.eqb c backslash then [backslash; c] else [c]) l.
Lemma escaped_inj : forall a b, escaped a = escaped b -> a = b.
Proof.
  induction a as [|x a IH]; intros [|y b] H; cbn in H; [reflexivity|exfalso; destruct (Ascii.eqb y dquote || Ascii.eqb y backslash); discriminate|exfalso; destruct (Ascii.eqb x dquote || Ascii.eqb x backslash); discriminate|].
  destruct (Ascii.eqb x dquote || Ascii.eqb x backslash) eqn:EX, (Ascii.eqb y dquote || Ascii.eqb y backslash) eqn:EY; cbn in H.
  - injection H as -> H. f_equal. auto.
  - injection H as <- _. discriminate EY.
  - injection H as -> _. discriminate EX.
  - injection H as -> H. f_equal. auto.
Qed.
Lemma quoted_inj a b : text (stdQuoted a) = text (stdQuoted b) -> a = b.
Proof. intros H. apply (f_equal lit) in H. rewrite !text_lit in H. apply escaped_inj. unfold escaped. apply (List.app_inv_tail [dquote]). unfold stdQuoted in H. injection H as H. exact H. Qed.
Lemma slash_inj : forall p q, proper_path p -> proper_path q -> flat_map (fun n => "/"%char :: n) p = flat_map (fun n => "/"%char :: n) q -> p = q.
Proof.
  assert (U : forall (a b : list ascii) r s, ~ In "/"%char a -> ~ In "/"%char b -> (r = [] \/ exists r', r = "/"%char :: r') -> (s = [] \/ exists s', s = "/"%char :: s') -> a ++ r = b ++ s -> a = b /\ r = s).
  { induction a as [|x a IH]; intros [|y b] r s A B R Q E; cbn in E.
    - auto.
    - destruct R as [->|(r' & ->)]; [discriminate|]. injection E as <- _. exfalso. apply B. left. reflexivity.
    - destruct Q as [->|(s' & ->)]; [discriminate|]. injection E as -> _. exfalso. apply A. left. reflexivity.
    - injection E as -> E. destruct (IH b r s) as (-> & ->); auto; intros F; [apply A|apply B]; right; exact F. }
  assert (T : forall p : path, flat_map (fun n => "/"%char :: n) p = [] \/ exists r, flat_map (fun n => "/"%char :: n) p = "/"%char :: r) by (intros [|n p]; cbn; eauto).
  induction p as [|n p IH]; intros [|m q] P Q E; cbn in E; try discriminate; [reflexivity|]. injection E as E. inversion P; inversion Q; subst. apply U in E as (-> & E); auto. f_equal. auto.
Qed.
Lemma path_text_inj p q : proper_path p -> proper_path q -> path_text p = path_text q -> p = q.
Proof. intros P Q H. apply (f_equal lit) in H. unfold path_text in H. rewrite !text_lit in H. exact (slash_inj _ _ P Q H). Qed.
Lemma quoted_path_inj p q : proper_path p -> proper_path q -> quoted_path p = quoted_path q -> p = q.
Proof. intros P Q H. apply quoted_inj in H. apply lit_inj in H. exact (path_text_inj _ _ P Q H). Qed.
Lemma cerr_inj what usage e e' : proper_message e -> proper_message e' -> sayCerr what usage e = sayCerr what usage e' -> e = e'.
Proof.
  intros P P' H. destruct e, e'; cbn in P, P'; try contradiction; cbn [sayCerr] in H; try discriminate H.
  - apply str_head in H. apply str_tail in H. f_equal. exact (path_text_inj _ _ P P' H).
  - apply str_head in H. apply str_tail in H. f_equal. exact (path_text_inj _ _ P P' H).
  - apply str_head in H. apply str_tail in H. f_equal. exact (quoted_inj _ _ H).
  - destruct P as (K & P), P' as (K' & P'). destruct K as [<-|[<-|[]]], K' as [<-|[<-|[]]]; try discriminate H; apply str_head in H; apply str_head in H; apply str_head in H; apply str_tail in H; f_equal; exact (quoted_path_inj _ _ P P' H).
  - apply str_head in H. apply str_tail in H. f_equal. exact (quoted_path_inj _ _ P P' H).
  - apply str_head in H. apply str_tail in H. f_equal. exact (quoted_path_inj _ _ P P' H).
  - apply str_head in H. apply str_tail in H. f_equal. exact H.
  - reflexivity.
  - apply str_head in H. apply str_tail in H. f_equal. exact (quoted_path_inj _ _ P P' H).
Qed.
