(** * What a simulation prints (C62-C64) *)
From Verif Require Export SpecConsole SimFacts StepFacts SafetyFacts NeighborProps.
From Coq Require Import PeanoNat.
Open Scope Z_scope.

Section ConsoleFacts.
Context {N : Num}.

(** ** the log does not influence the run *)
Lemma stepLog_ok S m m' w : stepLog S m = Ok (m', w) -> stepForward S m = Ok m'.
Proof. unfold stepLog. intros H. binds H. destruct r. binds H. destruct r. binds H. now inv H. Qed.
Lemma stepLog_total S m m' : stepForward S m = Ok m' -> exists w, stepLog S m = Ok (m', w).
Proof.
  intros H. unfold stepLog. rewrite H. unfold stepForward in H. binds H. destruct r. rewrite E. cbn [bind]. binds H. destruct r. rewrite E0. cbn [bind]. eauto.
Qed.
Lemma reportLog_ok real c st e : reportLog real c st = Ok e -> exists x, timeStepReport real c st = Ok x.
Proof. unfold reportLog. intros H. binds H. eauto. Qed.
Lemma reportLog_total real c st x : timeStepReport real c st = Ok x -> exists e, reportLog real c st = Ok e.
Proof. intros H. unfold reportLog. rewrite H. destruct x, c. cbn [bind]. eauto. Qed.
Lemma iterationLog_ok S real c st st' w : iterationLog S real c st = Ok (st', w) -> iteration S real c st = Ok st'.
Proof.
  unfold iterationLog, iteration. intros H. binds H. destruct r as [m w0]. apply stepLog_ok in E. rewrite E. cbn [bind]. binds H. rewrite E0. cbn [bind].
  binds H. apply reportLog_ok in E1 as [x ->]. cbn [bind]. binds H. now inv H.
Qed.
Lemma iterationLog_total S real c st st' : iteration S real c st = Ok st' -> exists w, iterationLog S real c st = Ok (st', w).
Proof.
  unfold iterationLog, iteration. intros H. binds H. destruct (stepLog_total _ _ _ E) as [w ->]. cbn [bind]. binds H. rewrite E0. cbn [bind].
  binds H. destruct (reportLog_total _ _ _ _ E1) as [e ->]. cbn [bind]. rewrite H. cbn [bind]. eauto.
Qed.
Lemma loopLog_ok S real clk : forall fuel k st st' w, loopLog S real clk fuel k st = Ok (st', w) -> loop S real clk fuel k st = Ok st'.
Proof.
  induction fuel as [|fuel IH]; intros k st st' w H; cbn [loopLog loop] in *; destruct (nlt _ _); try discriminate; try (now inv H).
  binds H. destruct r as [s1 w1]. rewrite (iterationLog_ok _ _ _ _ _ _ E). cbn [bind]. binds H. destruct r as [s2 w2]. inv H. eapply IH; eauto.
Qed.
Lemma loopLog_total S real clk : forall fuel k st st', loop S real clk fuel k st = Ok st' -> exists w, loopLog S real clk fuel k st = Ok (st', w).
Proof.
  induction fuel as [|fuel IH]; intros k st st' H; cbn [loopLog loop] in *; destruct (nlt _ _); try discriminate; try (inv H; eauto; fail).
  binds H. destruct (iterationLog_total _ _ _ _ _ E) as [w ->]. cbn [bind]. destruct (IH _ _ _ H) as [w' ->]. cbn [bind]. eauto.
Qed.
Lemma C62_erase S real fin clk fuel st st' : (exists log, runLog S real fin clk fuel st = Ok (st', log)) <-> run S real clk fuel st = Ok st' /\ in_int64 (fin - real) = true.
Proof.
  unfold runLog, run. split.
  - intros [log H]. binds H. cbn [bind]. binds H. destruct r0 as [s w]. binds H. inv H. rewrite E. cbn [bind]. split; [eapply loopLog_ok; eauto|]. unfold cint64 in E1. destruct (in_int64 _); auto. discriminate.
  - intros [H I]. binds H. rewrite E. cbn [bind]. destruct (loopLog_total _ _ _ _ _ _ _ H) as [w ->]. cbn [bind]. unfold cint64. rewrite I. cbn [bind]. eauto.
Qed.

(** ** warnings *)
Lemma warnings_app i a b : warnings i (a ++ b) = warnings i a ++ warnings i b.
Proof. apply filter_app. Qed.
Definition warn1 (d : domain) (p : particle) : list event := if is_type p Ghost then [] else if isInDomain d (p_pos p) then [] else [OutOfDomain (p_id p) (p_pos p)].
Lemma warnings_warn1 d p i : warnings i (warn1 d p) = if p_id p =? i then warn1 d p else [].
Proof. unfold warn1. destruct (is_type p Ghost); [now destruct (_ =? _)|]. destruct (isInDomain _ _); [now destruct (_ =? _)|]. simpl. now destruct (_ =? _). Qed.
Lemma warnings_none d ps i : (forall p, In p ps -> p_id p <> i) -> warnings i (storeWarnings d ps) = [].
Proof.
  induction ps as [|p ps IH]; intros H; auto. unfold storeWarnings. cbn [flat_map]. fold (storeWarnings d ps). fold (warn1 d p). rewrite warnings_app, warnings_warn1, IH by (simpl in H; auto).
  destruct (Z.eqb_spec (p_id p) i); auto. exfalso. apply (H p); simpl; auto.
Qed.
Lemma warnings_store d ps i p : indexed ps -> nth_error ps i = Some p -> warnings (Z.of_nat i) (storeWarnings d ps) = warn1 d p.
Proof.
  intros ID Hp. destruct (nth_error_split _ _ Hp) as (a & b & -> & L). unfold storeWarnings. rewrite flat_map_app. cbn [flat_map]. fold (storeWarnings d a) (storeWarnings d b) (warn1 d p).
  rewrite !warnings_app, !warnings_none; [|intros q Hq|intros q Hq].
  - rewrite app_nil_r, warnings_warn1. rewrite (ID i p Hp), Z.eqb_refl. reflexivity.
  - apply In_nth_error in Hq as [j Hq]. assert (E : nth_error (a ++ p :: b) (Datatypes.S (i + j)) = Some q).
    { rewrite nth_error_app2 by lia. replace (Datatypes.S (i + j) - List.length a)%nat with (Datatypes.S j) by lia. exact Hq. }
    rewrite (ID _ _ E). lia.
  - apply In_nth_error in Hq as [j Hq]. assert (j < List.length a)%nat by (apply nth_error_Some; congruence). assert (E : nth_error (a ++ p :: b) j = Some q) by (rewrite nth_error_app1; auto).
    rewrite (ID _ _ E). lia.
Qed.

Section Warn.
Variable K : vec -> vec -> Prop.
Hypothesis K_refl : forall v, K v v.
Hypothesis K_trans : forall u v w, K u v -> K v w -> K u w.
Definition rel (p p' : particle) : Prop := same_id p p' /\ (p_type p <> Fluid -> K (p_pos p) (p_pos p')).
Hypothesis collision_rel : forall s ps ps', collision s ps = Ok ps' -> Forall2 rel ps ps'.

Lemma rel_refl p : rel p p.
Proof. split; [apply same_id_refl|auto]. Qed.
Lemma rel_trans p q r : rel p q -> rel q r -> rel p r.
Proof.
  intros [A B] [C D]. split; [eapply same_id_trans; eauto|]. intros T. eapply K_trans; [now apply B|]. apply D. destruct A as (_ & _ & _ & [-> | ->]); auto. discriminate.
Qed.
Lemma evolves_rel p q : evolves p q -> rel p q.
Proof. intros [A B]. split; auto. intros T. destruct (B T) as [-> _]. apply K_refl. Qed.

(** the warnings [w] printed while [ps] becomes [ps'] *)
Definition seg (d : domain) (w : list event) (ps ps' : list particle) : Prop :=
  Forall2 rel ps ps' /\
  forall i p p', nth_error ps i = Some p -> nth_error ps' i = Some p' ->
    (p_type p <> Ghost -> p_type p' = Ghost -> exists x, warnings (Z.of_nat i) w = [OutOfDomain (Z.of_nat i) x] /\ outside d x /\ K x (p_pos p')) /\
    (p_type p = Ghost \/ p_type p' <> Ghost -> warnings (Z.of_nat i) w = []).

Lemma rel_ghost p q : rel p q -> p_type p = Ghost -> p_type q = Ghost.
Proof. intros ((_ & _ & _ & [->| ->]) & _); auto. Qed.
Lemma seg_trans d w w' a b c : seg d w a b -> seg d w' b c -> seg d (w ++ w') a c.
Proof.
  intros [R1 W1] [R2 W2]. split; [eapply Forall2_trans; eauto using rel_trans|]. intros i p r Hp Hr.
  destruct (Forall2_nth _ _ _ _ _ R1 Hp) as (q & Hq & Rpq). destruct (Forall2_nth _ _ _ _ _ R2 Hq) as (r' & Hr' & Rqr). assert (r' = r) by congruence. subst r'.
  destruct (W1 i p q Hp Hq) as [A1 B1]. destruct (W2 i q r Hq Hr) as [A2 B2]. rewrite warnings_app. split.
  - intros T T'. destruct (Z.eq_dec (p_type q) Ghost) as [G|G].
    + destruct (A1 T G) as (x & E & O & KX). rewrite E, B2 by auto. exists x. split; auto. split; auto. eapply K_trans; [exact KX|]. apply Rqr. rewrite G. discriminate.
    + rewrite B1 by auto. apply A2; auto.
  - intros [T|T].
    + rewrite B1, B2; auto. left. eapply rel_ghost; eauto.
    + rewrite B1, B2; auto. right. intros G. apply T. eapply rel_ghost; eauto.
Qed.
Lemma seg_silent d w ps : (forall i, warnings i w = []) -> seg d w ps ps.
Proof. intros H. split; [apply Forall2_same, rel_refl|]. intros i p p' Hp Hp'. assert (p' = p) by congruence. subst. split; auto. intros A B. contradiction. Qed.
Lemma seg_stage d ps ps' : Forall2 rel ps ps' -> Forall2 same_lists ps ps' -> seg d [] ps ps'.
Proof.
  intros R L. split; auto. intros i p p' Hp Hp'. destruct (Forall2_nth _ _ _ _ _ L Hp) as (q & Hq & (_ & T & _)). assert (q = p') by congruence. subst q. split; auto. intros A B. congruence.
Qed.
Lemma seg_search re d ns ps ns' ps' : used_searcher re d (List.length ps) ns -> indexed ps -> setNeighbors ns ps = Ok (ns', ps') -> seg d (searchWarnings ns ps) ps ps'.
Proof.
  intros U ID H. split.
  { apply setNeighbors_evolves in H. eapply Forall2_impl; [|exact H]. apply evolves_rel. }
  destruct (search_frame _ _ _ _ _ _ U H) as [_ F]. intros i p p' Hp Hp'. destruct (F i p Hp) as (q & Hq & A & B & C). assert (q = p') by congruence. subst q. clear F.
  assert (ED : b_domain (ns_bucket ns) = d) by (apply used_shape in U; destruct U; auto). unfold searchWarnings. rewrite (warnings_store _ _ _ _ ID Hp), ED. unfold warn1.
  destruct (is_type p Ghost) eqn:T.
  - apply is_type_eq in T. split; auto. contradiction.
  - apply is_type_neq in T. destruct (isInDomain d (p_pos p)) eqn:D.
    + apply inDomain_outside in D. destruct (C T D) as [l ->]. split; auto. contradiction.
    + apply inDomain_outside_false in D. rewrite (B T D). rewrite (ID i p Hp). split.
      * intros _ _. exists (p_pos p). auto.
      * intros [G|G]; contradiction.
Qed.

Lemma ev_lists_seg d a b : Forall2 evolves a b -> Forall2 same_lists a b -> seg d [] a b.
Proof. intros E L. apply seg_stage; auto. eapply Forall2_impl; [|exact E]. apply evolves_rel. Qed.
Lemma collision_lists s ps ps' : collision s ps = Ok ps' -> Forall2 same_lists ps ps'.
Proof.
  unfold collision. apply (foldM_R _ same_lists_refl same_lists_trans). intros i u u' E. unfold collision1 in E. binds E. destruct (negb _); [inv E; apply Forall2_same, same_lists_refl|].
  revert E. apply (foldM_R _ same_lists_refl same_lists_trans). intros nb v v'. apply collide_lists.
Qed.
Lemma move_lists s ps : Forall2 same_lists ps (moveParticle s ps).
Proof. apply Forall2_map_r. intros p. unfold moveParticle1. destruct (is_type p Fluid); unfold same_lists; simpl; auto. Qed.
Lemma seg_of_search re d ns ps ns1 ps1 ps2 : used_searcher re d (List.length ps) ns -> indexed ps -> setNeighbors ns ps = Ok (ns1, ps1) -> seg d [] ps1 ps2 ->
  seg d (searchWarnings ns ps) ps ps2.
Proof. intros U ID E1 G. rewrite <- (app_nil_r (searchWarnings _ _)). eapply seg_trans; [eapply seg_search; eauto|exact G]. Qed.
Lemma seg_nil_trans d a b c : seg d [] a b -> seg d [] b c -> seg d [] a c.
Proof. intros A B. exact (seg_trans d [] [] a b c A B). Qed.

Lemma step_seg S m m' w : sound m -> stepLog S m = Ok (m', w) -> seg (s_domain (m_settings m)) w (m_ps m) (m_ps m').
Proof.
  intros (ID & _ & U) H. unfold stepLog in H. binds H. destruct r as [ns1 ps1]. binds H. destruct r as [ns2 ps2]. binds H. inv H.
  set (d := s_domain (m_settings m)) in *.
  assert (U1 := move_searcher _ _ _ _ _ U E). assert (I1 := move_indexed _ _ _ ID E).
  assert (U2 := collide_searcher _ _ _ _ _ _ _ U1 E0). assert (I2 := collide_indexed _ _ _ _ _ I1 E0).
  assert (C : forall i, warnings i (if nlt (s_cfl (m_settings m)) (m_courant m') then [CourantError (m_courant m')] else []) = []) by (intros i; now destruct (nlt _ _)).
  apply seg_trans with ps1; [|apply seg_trans with ps2; [|eapply seg_trans; [|now apply seg_silent]]].
  - unfold stepMove in E. binds E. destruct r as [n0 p0]. binds E. inv E. eapply seg_of_search; eauto.
    eapply seg_nil_trans; [apply ev_lists_seg; [apply calGravity_evolves|apply gravity_lists]|].
    eapply seg_nil_trans; [apply ev_lists_seg; [eapply calViscosity_evolves; eauto|eapply viscosity_lists; eauto]|].
    apply ev_lists_seg; [apply moveParticle_evolves|apply move_lists].
  - unfold stepCollide in E0. binds E0. destruct r as [n0 p0]. binds E0. inv E0. eapply seg_of_search; eauto.
    apply seg_stage; [eapply collision_rel; eauto|eapply collision_lists; eauto].
  - unfold stepForward in E1. rewrite E in E1. cbn [bind] in E1. rewrite E0 in E1. cbn [bind] in E1. binds E1. destruct r as [ns3 ps3]. binds E1. destruct (calCourant _ _). inv E1. simpl.
    unfold stepPressure in E2. binds E2. destruct r0 as [n0 p0]. binds E2. binds E2. destruct r1 as [p5 x]. binds E2. inv E2.
    eapply seg_of_search; eauto.
    assert (LP : (ps <- calNumberDensity (m_settings m) (s_reN (m_settings m)) p0 ;; '(ps, x) <- calc S (m_calc m) ps ;; assignPressure x ps) = Ok ps3) by (match goal with A : calNumberDensity _ _ p0 = Ok _, B : calc _ _ _ = Ok (p5, x), C : assignPressure _ _ = Ok ps3 |- _ => rewrite A; cbn [bind]; rewrite B; cbn [bind]; exact C end).
    apply pressure_lists in LP. eapply seg_nil_trans; [apply ev_lists_seg; [|exact LP]|].
    { eapply Forall2_trans; [exact evolves_trans|eapply calNumberDensity_evolves; eauto|]. eapply Forall2_trans; [exact evolves_trans|eapply calc_evolves; eauto|eapply assignPressure_evolves; eauto]. }
    unfold stepCorrect in E3. binds E3. binds E3.
    eapply seg_nil_trans; [apply ev_lists_seg; [eapply minp_evolves; eauto|eapply minp_lists; eauto]|].
    eapply seg_nil_trans; [apply ev_lists_seg; [eapply calPressureGradient_evolves; eauto|eapply gradient_lists; eauto]|].
    eapply seg_nil_trans; [apply ev_lists_seg; [apply (correct_evolves (m_settings m))|apply correct_lists]|].
    destruct (m_calc m).
    + inv E3. now apply seg_silent.
    + binds E3. apply ev_lists_seg; [eapply assignPressure_evolves; eauto|eapply assign_lists; eauto].
Qed.

(** *** the loop *)
Inductive trail (S : solver) (real : Z) (clk : nat -> Z * Z) : nat -> sim -> sim -> list (list event) -> Prop :=
| trail_0 k st : trail S real clk k st st []
| trail_S k st st1 st2 w ws : iterationLog S real (clk k) st = Ok (st1, w) -> trail S real clk (Datatypes.S k) st1 st2 ws -> trail S real clk k st st2 (w :: ws).
Lemma loopLog_trail S real clk : forall fuel k st st' w, loopLog S real clk fuel k st = Ok (st', w) -> exists ws, trail S real clk k st st' ws /\ w = concat ws.
Proof.
  induction fuel as [|fuel IH]; intros k st st' w H; cbn [loopLog] in H; destruct (nlt _ _); try discriminate; try (inv H; exists []; split; [constructor|reflexivity]).
  binds H. destruct r as [s1 w1]. binds H. destruct r as [s2 w2]. inv H. destruct (IH _ _ _ _ E0) as (ws & T & ->). exists (w1 :: ws). split; [econstructor; eauto|reflexivity].
Qed.
Lemma iterationLog_inv S real c st st' w : iterationLog S real c st = Ok (st', w) -> exists m w0 e,
  stepLog S (si_mps st) = Ok (m, w0) /\
  let st1 := mkSim m (si_start st) (nadd (si_time st) (si_dt st)) (si_end st) (si_dt st) (si_period st) (si_step st + 1) (si_file st) (si_out st) in
  reportLog real c st1 = Ok e /\ w = w0 ++ [e] /\
  (if saveCondition st1 then save st1 = Ok st' else st' = st1).
Proof.
  unfold iterationLog. intros H. binds H. destruct r as [m w0]. binds H. apply cint_inv in E0 as [-> _]. binds H. binds H. inv H.
  exists m, w0, r. split; auto. split; auto. split; auto. destruct (saveCondition _); auto. now inv E1.
Qed.
Lemma iterationLog_mps S real c st st' w : iterationLog S real c st = Ok (st', w) -> exists w0 e, stepLog S (si_mps st) = Ok (si_mps st', w0) /\ w = w0 ++ [e] /\ courant_errors [e] = [] /\ forall i, warnings i [e] = [].
Proof.
  intros H. apply iterationLog_inv in H as (m & w0 & e & A & B & -> & C). exists w0, e.
  assert (si_mps st' = m) as -> by (destruct (saveCondition _); [apply save_inv in C|]; now subst). split; auto. split; auto.
  unfold reportLog in B. binds B. destruct r, c. now inv B.
Qed.

Lemma trail_seg S real clk k st st' ws : trail S real clk k st st' ws -> sound (si_mps st) ->
  seg (s_domain (m_settings (si_mps st))) (concat ws) (m_ps (si_mps st)) (m_ps (si_mps st')).
Proof.
  induction 1 as [k st|k st st1 st2 w ws I T IH]; intros SD; [now apply seg_silent|].
  apply iterationLog_mps in I as (w0 & e & I & -> & _ & Q). assert (F := stepLog_ok _ _ _ _ I). cbn [concat].
  pose proof (step_static _ _ _ F) as (ES & _). rewrite ES in IH.
  eapply seg_trans; [|apply IH; eapply step_sound; eauto]. eapply seg_trans; [apply step_seg with S; eauto|now apply seg_silent].
Qed.
Lemma run_seg S real fin clk fuel st st' log : sound (si_mps st) -> runLog S real fin clk fuel st = Ok (st', log) ->
  seg (s_domain (m_settings (si_mps st))) log (m_ps (si_mps st)) (m_ps (si_mps st')).
Proof.
  intros SD H. unfold runLog in H. binds H. binds H. destruct r0 as [s w]. binds H. inv H. apply save_inv in E. subst r.
  apply loopLog_trail in E0 as (ws & T & ->). apply trail_seg in T; auto.
  change (Start :: concat ws ++ [End (calHourMinuteSecond r0)]) with ([Start] ++ concat ws ++ [End (calHourMinuteSecond r0)]).
  eapply seg_trans; [now apply seg_silent|]. eapply seg_trans; [exact T|now apply seg_silent].
Qed.
End Warn.

(** ** the reports *)
Lemma trail_frame S real clk k st st' ws : trail S real clk k st st' ws -> (forall o, In o (si_out st) -> o_step o <= si_step st) ->
  (exists l, si_out st' = si_out st ++ l /\ forall o, In o l -> si_step st < o_step o) /\ si_step st' = si_step st + Z.of_nat (List.length ws) /\
  (forall o, In o (si_out st') -> o_step o <= si_step st').
Proof.
  induction 1 as [k st|k st st1 st2 w ws I T IH]; intros B.
  - split; [exists []; rewrite app_nil_r; split; [auto|intros ? []]|]. split; auto. simpl. lia.
  - apply iterationLog_inv in I as (m & w0 & e & A & R & -> & C). cbv zeta in *.
    assert (G : (exists l, si_out st1 = si_out st ++ l /\ forall o, In o l -> o_step o = si_step st + 1) /\ si_step st1 = si_step st + 1).
    { destruct (saveCondition _); [apply save_inv in C|]; subst st1; simpl; split; auto.
      - eexists. split; [reflexivity|]. intros o [<-|[]]. reflexivity.
      - exists []. split; [now rewrite app_nil_r|intros ? []]. }
    destruct G as [(l & O & Q) K]. destruct IH as ((l' & O' & Q') & K' & B').
    { intros o Ho. rewrite O in Ho. rewrite K. apply in_app_iff in Ho as [Ho|Ho]; [apply B in Ho|apply Q in Ho]; lia. }
    split; [|split].
    + exists (l ++ l'). rewrite O', O, app_assoc. split; auto. intros o Ho. apply in_app_iff in Ho as [Ho|Ho]; [apply Q in Ho|apply Q' in Ho]; lia.
    + rewrite K', K. simpl List.length. lia.
    + exact B'.
Qed.
Lemma files_before_app k a b : files_before k (a ++ b) = files_before k a + files_before k b.
Proof. unfold files_before. rewrite filter_app, app_length. lia. Qed.
Lemma files_before_all k l : (forall o, In o l -> o_step o < k) -> files_before k l = Z.of_nat (List.length l).
Proof. intros H. unfold files_before. f_equal. f_equal. induction l as [|o l IH]; auto. simpl. rewrite (proj2 (Z.ltb_lt _ _)), IH; simpl in *; auto. Qed.
Lemma files_before_none k l : (forall o, In o l -> k <= o_step o) -> files_before k l = 0.
Proof. intros H. unfold files_before. assert (filter (fun o => o_step o <? k) l = []) as ->; auto. induction l as [|o l IH]; auto. simpl. rewrite (proj2 (Z.ltb_ge _ _)), IH; simpl in *; auto. Qed.

Lemma stepLog_shape S m m' w : stepLog S m = Ok (m', w) -> exists warns, Forall warning warns /\
  w = warns ++ if nlt (s_cfl (m_settings m)) (m_courant m') then [CourantError (m_courant m')] else [].
Proof.
  unfold stepLog. intros H. binds H. destruct r as [ns1 ps1]. binds H. destruct r as [ns2 ps2]. binds H. inv H.
  exists (searchWarnings (m_ns m) (m_ps m) ++ searchWarnings ns1 ps1 ++ searchWarnings ns2 ps2). rewrite <- !app_assoc. split; auto.
  assert (W : forall d ps, Forall warning (storeWarnings d ps)).
  { intros d ps. induction ps as [|p ps IH]; [constructor|]. unfold storeWarnings. cbn [flat_map]. apply Forall_app. split; auto. destruct (is_type p Ghost); [constructor|].
    destruct (isInDomain _ _); [constructor|]. constructor; [|constructor]. red; eauto. }
  unfold searchWarnings. rewrite !Forall_app. auto.
Qed.

Lemma trail_reports S real clk st0 k st st' ws : fresh st0 -> trail S real clk k st st' ws ->
  conf st0 st -> si_time st = time_at (si_start st0) (si_dt st0) k -> si_step st = Z.of_nat k -> steps S k (si_mps st0) (si_mps st) ->
  si_file st = Z.of_nat (List.length (si_out st)) -> (forall o, In o (si_out st) -> o_step o <= si_step st) ->
  forall j w, nth_error ws j = Some w -> exists m, steps S (Datatypes.S (k + j)) (si_mps st0) m /\ printed st0 real (clk (k + j)%nat) (Datatypes.S (k + j)) m (si_out st') w.
Proof.
  intros F T. induction T as [k st|k st st1 st2 w0 ws I T IH]; intros CF TM K M FI B j w Hj; [now destruct j|].
  destruct CF as (C1 & C2 & C3 & C4). assert (I' := I).
  apply iterationLog_inv in I as (m & v & e & A & R & -> & C). cbv zeta in *. assert (SF := stepLog_ok _ _ _ _ A).
  assert (SM : steps S (Datatypes.S k) (si_mps st0) m) by (econstructor; eauto).
  assert (G : si_mps st1 = m /\ si_start st1 = si_start st /\ si_end st1 = si_end st /\ si_dt st1 = si_dt st /\ si_period st1 = si_period st /\ si_time st1 = nadd (si_time st) (si_dt st) /\
    si_step st1 = si_step st + 1 /\ si_file st1 = Z.of_nat (List.length (si_out st1)) /\ exists l, si_out st1 = si_out st ++ l /\ forall o, In o l -> o_step o = si_step st + 1).
  { destruct (saveCondition _); [apply save_inv in C|]; subst st1; simpl; repeat split; auto.
    - rewrite app_length, FI. simpl. lia.
    - eexists. split; [reflexivity|]. intros o [<-|[]]. reflexivity.
    - exists []. split; [now rewrite app_nil_r|intros ? []]. }
  destruct G as (G1 & G2 & G3 & G4 & G5 & G6 & G7 & G8 & l & G9 & G10).
  assert (B1 : forall o, In o (si_out st1) -> o_step o <= si_step st1).
  { intros o Ho. rewrite G9 in Ho. rewrite G7. apply in_app_iff in Ho as [Ho|Ho]; [apply B in Ho|apply G10 in Ho]; lia. }
  destruct j as [|j].
  - simpl in Hj. injection Hj as <-. rewrite Nat.add_0_r. exists m. split; auto.
    destruct (stepLog_shape _ _ _ _ A) as (warns & W & ->). assert (ST : m_settings (si_mps st) = m_settings (si_mps st0)) by (apply steps_static in M; apply M).
    destruct (trail_frame _ _ _ _ _ _ _ T B1) as ((l' & O' & Q') & _). rewrite ST in *.
    unfold reportLog in R. binds R. destruct r as [el re]. destruct (clk k) as [c1 c2]. inv R. unfold timeStepReport in E. simpl in E. rewrite K in E |- *.
    replace (Z.of_nat k + 1) with (Z.of_nat (Datatypes.S k)) in * by lia. rewrite (proj2 (Z.eqb_neq _ _)) in E by lia.
    binds E. unfold cint64 in E0. destruct (in_int64 _) eqn:L1; inv E0. binds E. binds E0. binds E0. unfold cint64 in E2. destruct (in_int64 (r0 - _)) eqn:L2; inv E2. inv E0. binds E. inv E.
    exists warns, r0. simpl fst; simpl snd. rewrite C1, C2, C3 in *. split; [exact W|]. split; [exact E1|]. rewrite <- app_assoc. do 3 f_equal.
    cbn [si_step si_dt si_time si_end si_file si_mps]. rewrite (proj2 (Z.eqb_neq _ _)) by lia. rewrite TM. f_equal.
    rewrite O', G9, <- app_assoc, !files_before_app. rewrite (files_before_all _ (si_out st)), (files_before_none _ l), (files_before_none _ l').
    + rewrite FI. lia.
    + intros o Ho. apply Q' in Ho. lia.
    + intros o Ho. apply G10 in Ho. lia.
    + intros o Ho. apply B in Ho. lia.
  - simpl in Hj. destruct (IH) with (j := j) (w := w) as (m' & M' & P'); auto.
    + unfold conf. rewrite G2, G3, G4, G5. auto.
    + rewrite G6, TM, C3. reflexivity.
    + lia.
    + now rewrite G1.
    + exists m'. rewrite Nat.add_succ_r. auto.
Qed.

Lemma C63_lemma S real fin clk fuel st st' log : fresh st -> runLog S real fin clk fuel st = Ok (st', log) ->
  exists ws, log = Start :: concat ws ++ [End (calHourMinuteSecond (fin - real))] /\ si_step st' = Z.of_nat (List.length ws) /\
    forall k w, nth_error ws k = Some w -> exists m, steps S (Datatypes.S k) (si_mps st) m /\ printed st real (clk k) (Datatypes.S k) m (si_out st') w.
Proof.
  intros F H. unfold runLog in H. binds H. binds H. destruct r0 as [s w]. binds H. unfold cint64 in E1. destruct (in_int64 _); inv E1. inv H.
  apply loopLog_trail in E0 as (ws & T & ->). exists ws. split; auto. apply save_inv in E. destruct F as (F1 & F2 & F3 & F4).
  assert (B : forall o, In o (si_out r) -> o_step o <= si_step r). { subst r. simpl. rewrite F4, F2. intros o [<-|[]]. simpl. lia. }
  split.
  - destruct (trail_frame _ _ _ _ _ _ _ T B) as (_ & K & _). rewrite K. subst r. simpl. rewrite F2. lia.
  - intros k w Hk. apply (trail_reports S real clk st 0 r st' ws) with (j := k) (w := w); auto; try (subst r; simpl).
    + repeat split; auto.
    + unfold conf. auto.
    + auto.
    + auto.
    + constructor.
    + rewrite F4, F3. reflexivity.
Qed.

(** ** the Courant errors *)
Lemma courant_errors_app a b : courant_errors (a ++ b) = courant_errors a ++ courant_errors b.
Proof. apply filter_app. Qed.
Lemma courant_warnings w : Forall warning w -> courant_errors w = [].
Proof. induction 1 as [|e l (i & x & ->) _ IH]; auto. Qed.
Lemma trail_errors S real clk k st st' ws : trail S real clk k st st' ws ->
  m_cflErrors (si_mps st') = (m_cflErrors (si_mps st) + List.length (courant_errors (concat ws)))%nat.
Proof.
  induction 1 as [k st|k st st1 st2 w ws I T IH]; [simpl; lia|].
  apply iterationLog_mps in I as (w0 & e & I & -> & Q & _).
  assert (SF := stepLog_ok _ _ _ _ I). apply C22_reported in SF as [_ SF].
  apply stepLog_shape in I as (warns & W & ->). cbn [concat]. rewrite !courant_errors_app, (courant_warnings _ W), Q. rewrite IH, SF, app_nil_r, app_length. simpl List.length.
  destruct (nlt _ _); simpl; lia.
Qed.
Lemma C63_errors S real fin clk fuel st st' log : runLog S real fin clk fuel st = Ok (st', log) ->
  m_cflErrors (si_mps st') = (m_cflErrors (si_mps st) + List.length (courant_errors log))%nat.
Proof.
  intros H. unfold runLog in H. binds H. binds H. destruct r0 as [s w]. binds H. inv H. apply loopLog_trail in E0 as (ws & T & ->). apply trail_errors in T. rewrite T.
  change (Start :: concat ws ++ [End (calHourMinuteSecond r0)]) with ([Start] ++ concat ws ++ [End (calHourMinuteSecond r0)]). rewrite !courant_errors_app. simpl. rewrite app_nil_r.
  apply save_inv in E. now subst r.
Qed.
End ConsoleFacts.
