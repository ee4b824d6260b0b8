(** * Everything the program prints: the order of the messages *)
From Coq Require Import Reals String.
From Verif Require Import FloatFacts SimF TotalR CsvFacts ResumeFiles ResumeRun StepCasesF BinFacts.
From Verif Require Import SpecConsole ConsoleFacts EndingsFacts.
From Verif Require Export MessagesFacts.
Open Scope list_scope.
Open Scope Z_scope.
#[local] Remove Hints Rnum : typeclass_instances.

Definition failed {A B} (o : outcome A) (o' : outcome B) : Prop := (forall a, o <> Ok a) /\ stop_of o = stop_of o'.
Lemma next_cases {A B} (m : say A) (k : A -> say B) f f' w o : next m k f = (f', w, o) ->
  (exists o1, m f = (f', w, o1) /\ failed o1 o) \/ exists f1 w1 w2 a, m f = (f1, w1, Ok a) /\ k a f1 = (f', w2, o) /\ w = w1 ++ w2.
Proof.
  unfold next. destruct (m f) as [[f1 w1] [a|u| |c| |]] eqn:E.
  1:{ destruct (k a f1) as [[f2 w2] o2] eqn:E2. intros [= <- <- <-]. right. eauto 8. }
  all: intros [= <- <- <-]; left; eexists; (split; [reflexivity|]); split; [discriminate|reflexivity].
Qed.

(** ** headers are printed by the options only *)
Definition later {A} (r : filesystem * list message * outcome A) : Prop := let '(_, w, _) := r in Forall (fun e => ~ header e) w.
Lemma later_next {A B} (m : say A) (k : A -> say B) f : later (m f) -> (forall f1 a, later (k a f1)) -> later (next m k f).
Proof. unfold next. intros N K. destruct (m f) as [[f1 w] [a|u| |c| |]]; try exact N. specialize (K f1 a). destruct (k a f1) as [[f2 w2] o]. apply Forall_app. auto. Qed.
Lemma later_silently {A} (a : act A) f : later (silently a f). Proof. unfold silently. destruct (a f). constructor. Qed.
Lemma error_later e : error e -> ~ header e. Proof. destruct e; cbn; auto. Qed.
Lemma later_or {A} e (a : act A) f : error e -> later (or_says e a f).
Proof. intros X. unfold or_says. destruct (a f) as [f1 [b|u| |c| |]]; cbn; repeat constructor. apply error_later, X. Qed.
Lemma later_stop {A} e f : error e -> later (@stop_with A e f). Proof. intros X. repeat constructor. apply error_later, X. Qed.
Lemma later_events l f : later (print (map Event l) f).
Proof. apply Forall_forall. intros e H. apply in_map_iff in H as (x & <- & _). exact (fun F => F). Qed.

(** ** what one step prints *)
Definition inner (e : @event F64) : Prop := match e with Start | End _ => False | _ => True end.
Definition shaped {A} (n : nat) (r : filesystem * list message * outcome A) : Prop :=
  let '(_, w, o) := r in exists l errors, w = map Event l ++ errors /\ (List.length errors <= 1)%nat /\ Forall error errors /\
    (List.length (filter is_report l) <= n)%nat /\ Forall inner l /\ (errors = [] \/ exists c, o = Exit c).
Lemma shaped_next {A B} a b (m : say A) (k : A -> say B) f : shaped a (m f) -> (forall f1 x, shaped b (k x f1)) -> shaped (a + b) (next m k f).
Proof.
  unfold next. intros N K. destruct (m f) as [[f1 w] [x|u| |c| |]].
  2-6: destruct N as (l & er & -> & N1 & N2 & N3 & N4 & N5); exists l, er; (split; [reflexivity|]); (split; [exact N1|]); (split; [exact N2|]); (split; [lia|]); (split; [exact N4|]);
       destruct N5 as [N5|(d & N5)]; [left; exact N5|try discriminate N5; right; eauto].
  specialize (K f1 x). destruct (k x f1) as [[f2 w2] o]. destruct N as (l & er & -> & N1 & N2 & N3 & N4 & [->|(d & N5)]); [|discriminate N5]. destruct K as (l2 & er2 & -> & K1 & K2 & K3 & K4 & K5).
  exists (l ++ l2), er2. rewrite app_nil_r, app_assoc, map_app, filter_app, app_length. split; [reflexivity|]. split; [exact K1|]. split; [exact K2|]. split; [lia|]. split; [apply Forall_app; auto|exact K5].
Qed.
Lemma shaped_none {A} n f (o : outcome A) : shaped n (f, [], o).
Proof. exists [], []. cbn. repeat split; auto; lia. Qed.
Lemma shaped_silently {A} (a : act A) f : shaped 0 (silently a f). Proof. unfold silently. destruct (a f). apply shaped_none. Qed.
Lemma shaped_one {A} e f c : error e -> shaped 0 (f, [e], @Exit A c).
Proof. intros X. exists [], [e]. cbn. repeat split; auto. right. eauto. Qed.
Lemma shaped_or {A} e (a : act A) f : error e -> shaped 0 (or_says e a f).
Proof. intros X. unfold or_says. destruct (a f) as [f1 [b|u| |c| |]]; try apply shaped_none. apply shaped_one, X. Qed.
Lemma shaped_events n l f : (List.length (filter is_report l) <= n)%nat -> Forall inner l -> shaped n (print (map Event l) f).
Proof. intros H K. exists l, []. rewrite app_nil_r. cbn. repeat split; auto. Qed.
Lemma warnings_inner ns (ps : list Files.particle) : Forall inner (searchWarnings ns ps) /\ filter is_report (searchWarnings ns ps) = [].
Proof.
  unfold searchWarnings, storeWarnings. induction ps as [|p ps IH]; cbn [flat_map]; [split; [constructor|reflexivity]|]. rewrite filter_app. destruct IH as (I1 & ->). split; [apply Forall_app; split; [|exact I1]|];
    (destruct (is_type p Ghost); [|destruct (isInDomain _ _)]); first [reflexivity|repeat constructor].
Qed.
Lemma shaped_warnings ns (ps : list Files.particle) f : shaped 0 (print (map Event (searchWarnings ns ps)) f).
Proof. destruct (warnings_inner ns ps) as (H1 & H2). apply shaped_events; [rewrite H2; reflexivity|exact H1]. Qed.
Lemma shaped_step S m f : shaped 0 (stepSay S m f).
Proof.
  unfold stepSay. change 0%nat with (0 + (0 + (0 + (0 + (0 + (0 + (0 + (0 + 0))))))))%nat. apply shaped_next; [apply shaped_silently|]. intros f1 [ns ps]. apply shaped_next; [apply shaped_warnings|]. intros f2 _.
  apply shaped_next; [apply shaped_silently|]. intros f3 [n2 p2]. apply shaped_next; [apply shaped_warnings|]. intros f4 _. apply shaped_next; [apply shaped_silently|]. intros f5 _. apply shaped_next; [apply shaped_warnings|]. intros f6 _.
  apply shaped_next; [apply shaped_or; exact I|]. intros f7 m'. apply shaped_next; [|intros; apply shaped_silently]. destruct (nlt _ _); [apply (shaped_events 0 [CourantError _]); [cbn; lia|repeat constructor]|apply (shaped_events 0 []); [cbn; lia|constructor]].
Qed.
Lemma report_is (N : Num) z clock (st : @sim N) r : reportLog z clock st = Ok r -> match r with Report _ _ _ _ _ _ _ _ _ _ => True | _ => False end.
Proof. unfold reportLog. intros H. apply bind_ok in H as ([el re] & _ & H). destruct clock as [a b]. inversion H. exact I. Qed.
Lemma shaped_after {A B} n (o : outcome A) (k : A -> say B) f : (forall a, o = Ok a -> shaped n (k a f)) -> shaped n (next (silently (ret o)) k f).
Proof. intros K. unfold next, silently, ret. destruct o as [a|u| |c| |]; try apply shaped_none. specialize (K a eq_refl). destruct (k a f) as [[f2 w2] o2]. exact K. Qed.
Lemma shaped_iteration S real clock st f : shaped 1 (iterationSay S real clock st f).
Proof.
  unfold iterationSay. change 1%nat with (0 + (0 + 1))%nat. apply shaped_next; [apply shaped_step|]. intros f1 m. apply shaped_next; [apply shaped_silently|]. intros f2 k. cbv zeta. apply shaped_after. intros r E. apply report_is in E.
  change 1%nat with (1 + 0)%nat. apply shaped_next; [|intros; apply shaped_silently]. destruct r; try contradiction. apply (shaped_events 1 [_]); [cbn; lia|repeat constructor].
Qed.
Lemma shaped_all big bin out : forall l f, shaped 0 (saveAllSay big bin out l f).
Proof.
  induction l as [|o l IH]; intros f; cbn [saveAllSay]; [apply shaped_silently|]. change 0%nat with (0 + 0)%nat. apply shaped_next; [|intros; apply IH]. unfold saveFilesSay. cbv zeta. change 0%nat with (0 + (0 + 0))%nat.
  apply shaped_next; [apply shaped_or; exact I|]. intros. apply shaped_next; [apply shaped_or; exact I|]. intros. apply shaped_or. exact I.
Qed.
Lemma shaped_within {A} (r : filesystem * list message * outcome A) : shaped 1 r -> within_step (snd (fst r)).
Proof. destruct r as [[f w] o]. intros (l & er & H1 & H2 & H3 & H4 & H5 & _). exists l, er. auto. Qed.
Lemma within_none : within_step []. Proof. exists [], []. cbn. repeat split; auto; lia. Qed.

Section Order.
Variable parse : list ascii -> option node.
Variable as_int cell_int : list ascii -> option Z.
Variable as_dbl cell_dbl : list ascii -> option f64.
Variable as_bool : list ascii -> option bool.
Variable fsin fcos : f64 -> f64.
Variable M_PI : f64.
Variable big dbg : bool.
Variables (S : @solver F64) (real fin : Z) (clk : nat -> Z * Z) (fuel : nat) (fs : filesystem).
Notation loadS := (loadSay parse as_int as_dbl as_bool cell_int cell_dbl dbg).
Notation mainS := (mainSay parse as_int as_dbl as_bool cell_int cell_dbl fsin fcos M_PI big dbg).
Lemma loop_trail bin out : forall n k st f f' w o, loopSay big S real clk bin out n k st f = (f', w, o) ->
  exists ws st1 tail, trail S real clk k st st1 ws /\ w = map Event (concat ws) ++ tail /\ within_step tail /\ (forall a, o = Ok a -> tail = []).
Proof.
  induction n as [|n IH]; intros k st f f' w o H; cbn [loopSay] in H; destruct (nlt (si_time st) (si_end st));
    try (injection H as <- <- <-; exists [], st, []; split; [constructor|]; split; [reflexivity|]; split; [apply within_none|auto]; fail).
  apply next_cases in H as [(o1 & H1 & F)|(f1 & w1 & w2 & s1 & H1 & H & ->)].
  { pose proof (shaped_within _ (shaped_iteration S real (clk k) st f)) as W. rewrite H1 in W. exists [], st, w. split; [constructor|]. split; [reflexivity|]. split; [exact W|]. intros a ->. destruct F as (F1 & F2). destruct o1 as [x|u| |c| |]; try discriminate F2. exfalso. exact (F1 x eq_refl). }
  pose proof (shaped_iteration S real (clk k) st f) as W. rewrite H1 in W. apply iteration_says in H1 as (l1 & -> & H1).
  apply next_cases in H as [(o1 & H2 & F)|(f3 & w3 & w4 & [] & H2 & H & ->)].
  - exists [], st, (map Event l1 ++ w2). split; [constructor|]. split; [reflexivity|]. split.
    + pose proof (shaped_all big bin out (news st s1) f1) as V. rewrite H2 in V. change (within_step (snd (fst (f', map Event l1 ++ w2, o1)))). apply shaped_within.
      pose proof (@shaped_next sim unit 1 0 (fun _ => (f1, map Event l1, Ok s1)) (fun _ _ => (f', w2, o1)) f1 W (fun _ _ => V)) as Q. exact Q.
    + intros a ->. destruct F as (F1 & F2). destruct o1 as [x|u| |c| |]; try discriminate F2. exfalso. exact (F1 x eq_refl).
  - apply all_says in H2 as ->. apply IH in H as (ws & st1 & tail & T & -> & T2 & T3). exists (l1 :: ws), st1, tail. split; [econstructor; eauto|]. split; [cbn [concat]; rewrite map_app, <- app_assoc; reflexivity|auto].
Qed.
Lemma run_trail bin out st0 f f' w o : fresh st0 -> runSay big S real fin clk bin out fuel st0 f = (f', w, o) -> (forall a, o <> Ok a) ->
  exists ws mk outs tail, w = map Event (Start :: concat ws) ++ tail /\ within_step tail /\ steps S (List.length ws) (si_mps st0) mk /\
    forall j v, nth_error ws j = Some v -> exists m, steps S (Datatypes.S j) (si_mps st0) m /\ printed st0 real (clk j) (Datatypes.S j) m outs v.
Proof.
  intros F H N. unfold runSay in H. assert (NF : forall A (o1 : outcome A), failed o1 o -> True) by auto.
  assert (Z : forall tail, within_step tail -> w = Event Start :: tail -> exists ws mk outs tail, w = map Event (Start :: concat ws) ++ tail /\ within_step tail /\ steps S (List.length ws) (si_mps st0) mk /\
    forall j v, nth_error ws j = Some v -> exists m, steps S (Datatypes.S j) (si_mps st0) m /\ printed st0 real (clk j) (Datatypes.S j) m outs v).
  { intros tail T ->. exists [], (si_mps st0), [], tail. split; [reflexivity|]. split; [exact T|]. split; [constructor|]. intros [|j] v X; discriminate. }
  apply next_cases in H as [(o1 & H1 & (K & _))|(f1 & w1 & w2 & [] & H1 & H & E)]; [exfalso; injection H1 as _ _ H1; exact (K tt (eq_sym H1))|]. injection H1 as <- <-. cbn [List.app] in E.
  apply next_cases in H as [(o1 & H1 & _)|(f3 & w3 & w4 & st1 & H1 & H & E2)]. { injection H1 as _ <- _. exact (Z [] within_none E). }
  apply silently_ok in H1 as (-> & H1). apply ret_ok in H1 as (-> & H1). cbn [List.app] in E2. subst w4.
  apply next_cases in H as [(o1 & H2 & _)|(f5 & w5 & w6 & [] & H2 & H & E2)].
  { apply (Z w2); [|exact E]. pose proof (shaped_all big bin out (news st0 st1) f) as V. rewrite H2 in V. destruct V as (l & er & V1 & V2 & V3 & V4 & V5 & _). exists l, er. split; [exact V1|]. split; [exact V2|]. split; [exact V3|]. split; [lia|exact V5]. }
  apply all_says in H2 as ->. cbn [List.app] in E2. subst w6.
  assert (Q : forall ws st2 tail, trail S real clk 0 st1 st2 ws -> within_step tail -> w2 = map Event (concat ws) ++ tail -> exists ws mk outs tail, w = map Event (Start :: concat ws) ++ tail /\ within_step tail /\ steps S (List.length ws) (si_mps st0) mk /\
    forall j v, nth_error ws j = Some v -> exists m, steps S (Datatypes.S j) (si_mps st0) m /\ printed st0 real (clk j) (Datatypes.S j) m outs v).
  { intros ws st2 tail T W E3. apply save_inv in H1. destruct F as (F1 & F2 & F3 & F4).
    assert (B : forall o, In o (si_out st1) -> o_step o <= si_step st1). { subst st1. cbn. rewrite F4, F2. intros x [<-|[]]. cbn. lia. }
    assert (R : forall j v, nth_error ws j = Some v -> exists m, steps S (Datatypes.S j) (si_mps st0) m /\ printed st0 real (clk j) (Datatypes.S j) m (si_out st2) v).
    { intros j v X. apply (trail_reports S real clk st0 0 st1 st2 ws) with (j := j) (w := v); auto; try (subst st1; cbn).
      - split; [exact F1|]. auto.
      - repeat split.
      - exact F1.
      - exact F2.
      - constructor.
      - rewrite F3, F4. reflexivity. }
    assert (L : exists mk, steps S (List.length ws) (si_mps st0) mk).
    { destruct (List.length ws) as [|n] eqn:EL; [exists (si_mps st0); constructor|]. destruct (nth_error ws n) as [v|] eqn:EN; [|apply nth_error_None in EN; lia]. destruct (R n v EN) as (m & M & _). eauto. }
    destruct L as (mk & L). exists ws, mk, (si_out st2), tail. split; [rewrite E, E3; reflexivity|]. auto. }
  apply next_cases in H as [(o1 & H2 & _)|(f7 & w7 & w8 & st2 & H2 & H & E2)].
  { apply loop_trail in H2 as (ws & s2 & tail & T1 & T2 & T3 & _). exact (Q ws s2 tail T1 T3 T2). }
  apply loop_trail in H2 as (ws & s2 & tail & T1 & T2 & T3 & T4). rewrite (T4 _ eq_refl), app_nil_r in T2.
  apply next_cases in H as [(o1 & H2 & _)|(f9 & w9 & w10 & d & H2 & H & E3)].
  - injection H2 as _ <- _. rewrite app_nil_r in E2. apply (Q ws s2 [] T1 within_none). rewrite app_nil_r. congruence.
  - exfalso. unfold next, print, silently, ret in H. injection H as _ _ H. exact (N _ (eq_sym H)).
Qed.
Lemma shaped_load setting out f : shaped 0 (loadS setting out f).
Proof.
  unfold loadSay. change 0%nat with (0 + (0 + (0 + (0 + (0 + 0)))))%nat. apply shaped_next; [apply shaped_silently|]. intros f1 y. apply shaped_next; [apply shaped_silently|]. intros f2 [[s pp] cores]. apply shaped_next.
  - unfold particlesSay. cbv zeta. destruct (text_eqb _ _); [apply shaped_silently|]. destruct (text_eqb _ _); [destruct (f2 pp); [apply shaped_silently|apply shaped_one; exact I]|]. destruct (text_eqb _ _); [destruct (f2 pp); [apply shaped_or; exact I|apply shaped_one; exact I]|apply shaped_one; exact I].
  - intros f3 [t ps]. apply shaped_next; [apply shaped_or; exact I|]. intros. apply shaped_next; [apply shaped_or; exact I|]. intros. apply shaped_silently.
Qed.
Lemma shaped_start {A} n f w (o : outcome A) : shaped n (f, w, o) -> ~ In (Event Start) w.
Proof.
  intros (l & er & -> & _ & E & _ & L & _) H. apply in_app_or in H as [H|H]; [|rewrite Forall_forall in E; exact (E _ H)]. apply in_map_iff in H as (x & X & H). injection X as ->. rewrite Forall_forall in L. exact (L _ H).
Qed.
Notation options flip setting out := (if flip : bool then next (outputOption out) (fun _ => settingOption setting) else next (settingOption setting) (fun _ => outputOption out)).
Lemma options_all (flip : bool) (setting out : option path) f w : options flip setting out fs = (f, w, Ok tt) -> f = fs /\ w = given flip setting out.
Proof.
  unfold given. destruct flip, setting as [s|], out as [o|]; unfold next, settingOption, outputOption, there, print, stop_with;
    try destruct (fs s) as [e|] eqn:Es; try destruct (fs o) as [[b|]|] eqn:Eo; cbn; rewrite ?Es, ?Eo; cbn; intros H; try discriminate H; injection H as <- <-; auto.
Qed.
Lemma options_some (flip : bool) (setting out : option path) f w o : options flip setting out fs = (f, w, o) -> (forall a, o <> Ok a) ->
  exists said rest, w = said ++ rest /\ Forall (fun e => ~ header e) rest /\ arguments_said fs (given flip setting out) said rest.
Proof.
  assert (HN : forall e, error e -> Forall (fun e => ~ header e) [e]) by (intros e X; constructor; [apply error_later, X|constructor]).
  unfold given, arguments_said. destruct flip, setting as [s|], out as [q|]; unfold next, settingOption, outputOption, there, print, stop_with;
    try destruct (fs s) as [e|] eqn:Es; try destruct (fs q) as [[b|]|] eqn:Eo; cbn; rewrite ?Es, ?Eo; cbn; intros H N; try (exfalso; injection H as _ _ H; exact (N tt (eq_sym H))); injection H as <- <- <-.
  all: first
    [ exists [], [NoSetting s]; split; [reflexivity|]; split; [apply HN; exact I|]; right; left; exists s; eexists; split; reflexivity
    | exists [], [NoOutput q]; split; [reflexivity|]; split; [apply HN; exact I|]; right; right; left; exists q; eexists; split; reflexivity
    | exists [OutputDirectory q], [NoSetting s]; split; [reflexivity|]; split; [apply HN; exact I|]; right; left; exists s; eexists; split; reflexivity
    | exists [SettingFile s], [NoOutput q]; split; [reflexivity|]; split; [apply HN; exact I|]; right; right; left; exists q; eexists; split; reflexivity
    | exists [OutputDirectory q], [BadArguments]; split; [reflexivity|]; split; [apply HN; exact I|]; right; right; right; exists q, b, []; eexists; split; [reflexivity|]; split; [reflexivity|]; split; [exact Eo|reflexivity]
    | exists [SettingFile s; OutputDirectory q], [BadArguments]; split; [reflexivity|]; split; [apply HN; exact I|]; right; right; right; exists q, b, [SettingFile s]; eexists; split; [symmetry; apply app_nil_r|]; split; [reflexivity|]; split; [exact Eo|reflexivity] ].
Qed.
Lemma later_run bin out st f : later (runSay big S real fin clk bin out fuel st f).
Proof.
  unfold runSay. apply later_next; [apply (later_events [Start])|]. intros f1 _. apply later_next; [apply later_silently|]. intros f2 s1. assert (A : forall l g, later (saveAllSay big bin out l g)).
  { intros l g. pose proof (shaped_all big bin out l g) as V. destruct (saveAllSay big bin out l g) as [[g' w] o]. destruct V as (l' & er & -> & _ & E & _). apply Forall_app. split; [apply (later_events l' g)|]. eapply Forall_impl; [apply error_later|exact E]. }
  apply later_next; [apply A|]. intros f3 _. apply later_next.
  - generalize f3 s1. generalize 0%nat. induction fuel as [|n IH]; intros k g st1; cbn [loopSay]; (destruct (nlt (si_time st1) (si_end st1)); [|apply later_silently]); [apply later_silently|].
    apply later_next; [|intros; apply later_next; [apply A|intros; apply IH]].
    pose proof (shaped_iteration S real (clk k) st1 g) as V. destruct (iterationSay S real (clk k) st1 g) as [[g' w] o]. destruct V as (l' & er & -> & _ & E & _). apply Forall_app. split; [apply (later_events l' g)|]. eapply Forall_impl; [apply error_later|exact E].
  - intros f4 s2. apply later_next; [apply later_silently|]. intros f5 d. apply later_next; [apply (later_events [End _])|]. intros. apply later_silently.
Qed.
Lemma main_arguments (flip : bool) setting out fs' w o : mainS S real fin clk fuel flip setting out fs = (fs', w, o) ->
  exists said rest, w = said ++ rest /\ Forall (fun e => ~ header e) rest /\ arguments_said fs (given flip setting out) said rest.
Proof.
  unfold mainSay. intros H. apply next_cases in H as [(o1 & H1 & (F & _))|(f1 & w1 & w2 & [] & H1 & H & ->)]; [exact (options_some _ _ _ _ _ _ H1 F)|].
  apply options_all in H1 as (-> & ->). exists (given flip setting out), w2. split; [reflexivity|]. split; [|left; reflexivity].
  assert (L : later ((match setting, out with
    | Some setting, Some out => next (loadS setting out) (fun i => next (silently (newSaver out)) (fun _ =>
        next (or_says (BadMethod (s_method (i_settings i))) (ret (factoryCreate fsin fcos M_PI (i_settings i) (i_particles i)))) (fun m =>
        runSay big S real fin clk (s_vtkBinary (i_settings i)) out fuel (newSim (i_start i) (i_settings i) m))))
    | _, _ => stop_with BadArguments end) fs)).
  { destruct setting as [s|], out as [q|]; try (apply later_stop; exact I). apply later_next.
    - pose proof (shaped_load s q fs) as V. destruct (loadS s q fs) as [[g' w] o']. destruct V as (l' & er & -> & _ & E & _). apply Forall_app. split; [apply (later_events l' fs)|]. eapply Forall_impl; [apply error_later|exact E].
    - intros f2 i. apply later_next; [apply later_silently|]. intros f3 _. apply later_next; [apply later_or; exact I|]. intros f4 m. apply later_run. }
  rewrite H in L. exact L.
Qed.
Lemma options_start (flip : bool) (setting out : option path) f w o : options flip setting out fs = (f, w, o) -> ~ In (Event Start) w.
Proof.
  destruct flip, setting as [s|], out as [q|]; unfold next, settingOption, outputOption, there, print, stop_with;
    try destruct (fs s) as [e|] eqn:Es; try destruct (fs q) as [[b|]|] eqn:Eo; cbn; rewrite ?Es, ?Eo; cbn; intros H; injection H as _ <- _; cbn; intuition discriminate.
Qed.
Lemma load_quiet setting out f f' w i : loadS setting out f = (f', w, Ok i) -> w = [].
Proof.
  intros H3. unfold loadSay in H3. apply next_ok in H3 as (f5 & w5 & w6 & y & K & H3 & ->). apply silently_ok in K as (-> & K). apply next_ok in H3 as (f7 & w7 & w8 & [[s pp] cores] & K' & H3 & ->). apply silently_ok in K' as (-> & K').
  apply next_ok in H3 as (f9 & w9 & w10 & [t ps] & P & H3 & ->). apply next_ok in H3 as (f11 & w11 & w12 & [] & C & H3 & ->). apply or_ok in C as (-> & _). apply next_ok in H3 as (f13 & w13 & w14 & [] & C & H3 & ->). apply or_ok in C as (-> & _). apply silently_ok in H3 as (-> & _).
  unfold particlesSay in P. cbv zeta in P. destruct (text_eqb _ _); [apply silently_ok in P as (-> & _); reflexivity|]. destruct (text_eqb _ _); [destruct (f7 pp); [apply silently_ok in P as (-> & _); reflexivity|discriminate]|].
  destruct (text_eqb _ _); [destruct (f7 pp); [apply or_ok in P as (-> & _); reflexivity|discriminate]|discriminate].
Qed.
Lemma main_progress (flip : bool) setting out fs' w o : mainS S real fin clk fuel flip setting out fs = (fs', w, o) -> (forall a, o <> Ok a) -> In (Event Start) w ->
  exists se q sb y s pp cores t ps m, setting = Some se /\ out = Some q /\ fs se = Some (File sb) /\ parse sb = Some y /\
    @loadSettingYaml F64 as_int as_dbl as_bool dbg (parent se) y = Ok (s, pp, cores) /\
    loadParticles cell_int cell_dbl dbg (s_rho0 s) fs pp = Ok (t, ps) /\ @factoryCreate F64 fsin fcos M_PI s ps = Ok m /\
    exists ws mk outs tail, w = headers flip se q ++ map Event (Start :: concat ws) ++ tail /\ within_step tail /\ steps S (List.length ws) m mk /\
      forall j v, nth_error ws j = Some v -> exists m', steps S (Datatypes.S j) m m' /\ printed (newSim t s m) real (clk j) (Datatypes.S j) m' outs v.
Proof.
  unfold mainSay. intros H N IS. apply next_cases in H as [(o1 & H1 & _)|(f1 & w1 & w2 & [] & H1 & H & ->)].
  { exfalso. exact (options_start _ _ _ _ _ _ H1 IS). }
  pose proof (options_start _ _ _ _ _ _ H1) as NS. apply options_all in H1 as (-> & ->). apply in_app_or in IS as [IS|IS]; [exfalso; exact (NS IS)|]. clear NS.
  destruct setting as [se|], out as [q|]; try (exfalso; injection H as _ <- _; destruct IS as [IS|[]]; discriminate).
  exists se, q. apply next_cases in H as [(o1 & H1 & _)|(f1 & w1 & w3 & i & H1 & H & ->)].
  { exfalso. pose proof (shaped_load se q fs) as V. rewrite H1 in V. exact (shaped_start _ _ _ _ V IS). }
  pose proof (load_quiet _ _ _ _ _ _ H1) as ->. cbn [List.app] in *. apply erased in H1. rewrite erase_load in H1. apply load_ok in H1 as (sb & y & pp & cores & pb & S1 & P1 & L1 & Q1 & _).
  apply next_cases in H as [(o1 & H2 & _)|(f3 & w4 & w5 & [] & H2 & H & ->)].
  { exfalso. unfold silently in H2. destruct (newSaver q f1). injection H2 as _ <- _. exact IS. }
  apply silently_ok in H2 as (-> & _). cbn [List.app] in *. apply next_cases in H as [(o1 & H2 & _)|(f5 & w6 & w7 & m & H2 & H & ->)].
  { exfalso. pose proof (shaped_or (BadMethod (s_method (i_settings i))) (ret (factoryCreate fsin fcos M_PI (i_settings i) (i_particles i))) f3 I) as V. rewrite H2 in V. exact (shaped_start _ _ _ _ V IS). }
  apply or_ok in H2 as (-> & H2). apply ret_ok in H2 as (-> & H2). cbn [List.app] in *.
  exists sb, y, (i_settings i), pp, cores, (i_start i), (i_particles i), m. do 7 (split; [first [reflexivity|assumption]|]).
  apply run_trail in H as (ws & mk & outs & tail & -> & R); [|exact (fresh_new _ _ _)|exact N]. exists ws, mk, outs, tail. split; [unfold given, headers; destruct flip; reflexivity|exact R].
Qed.
End Order.

(** ** The texts name their subject *)
Lemma unquote_escaped l k : unquote (escaped l ++ dquote :: k) = Some (l, k).
Proof.
  induction l as [|c l IH]; [reflexivity|]. cbn [escaped flat_map]. fold (escaped l). destruct (Ascii.eqb c dquote) eqn:D; [|destruct (Ascii.eqb c backslash) eqn:B].
  - cbn -[escaped]. now rewrite IH.
  - cbn -[escaped]. now rewrite IH.
  - cbn -[escaped]. unfold dquote in D. unfold backslash in B. rewrite D, B, IH. reflexivity.
Qed.
Lemma quotes_in (a b : string) l : quotes l (a ++ text (stdQuoted l) ++ b).
Proof. exists (lit a), (escaped l ++ dquote :: lit b), (lit b). rewrite !lit_app, text_lit. unfold stdQuoted. fold (escaped l). split; [cbn; rewrite <- app_assoc; reflexivity|apply unquote_escaped]. Qed.
Lemma str_nil (a : string) : (a ++ "" = a)%string. Proof. induction a as [|c a IH]; cbn; [reflexivity|]. now rewrite IH. Qed.
Lemma streams what usage e :
  (header e -> sayCerr what usage e = ""%string /\ names e (sayCout what e)) /\
  (error e -> names e (sayCerr what usage e) /\ sayCerr what usage e <> ""%string /\ (sayCout what e = ""%string \/ exists r, sayCerr what usage e = (sayCout what e ++ r)%string)) /\
  (forall p, e = NoSetting p \/ e = NoOutput p -> sayCout what e = sayCerr what usage e) /\
  (error e -> e <> BadArguments -> exists t, sayCerr what usage e = (t ++ newline)%string).
Proof.
  assert (C : forall a n b, contains n (a ++ n ++ b)%string) by (intros a n b; exists a, b; reflexivity).
  split; [|split; [|split]].
  - destruct e; cbn -[String.append newline]; intros H; try contradiction; (split; [reflexivity|apply C]).
  - destruct e; cbn [error]; intros H; try contradiction; (split; [|split; [cbn; try discriminate|]]); cbn [names sayCerr sayCout]; try exact I; try (left; reflexivity); try (right; exists ""%string; symmetry; apply str_nil); try apply C; try apply quotes_in.
    + destruct what; discriminate.
    + right. exists usage. now rewrite str_assoc.
    + split; [apply C|]. unfold quoted_path. rewrite <- !str_assoc. rewrite str_assoc. apply quotes_in.
  - intros p [->| ->]; reflexivity.
  - destruct e; cbn [error sayCerr]; intros H K; try contradiction; eexists; rewrite <- ?str_assoc; reflexivity.
Qed.
