(** * The simulation loop, for every number type *)
From Verif Require Export SpecSim StageFacts TextFacts.
Open Scope Z_scope.

Section SimFacts.
Context {N : Num}.

Lemma save_inv st st' : save st = Ok st' ->
  st' = mkSim (si_mps st) (si_start st) (si_time st) (si_end st) (si_dt st) (si_period st) (si_step st) (si_file st + 1)
              (si_out st ++ [mkO (si_file st) (si_step st) (si_time st) (si_mps st)]).
Proof. unfold save. intros H. binds H. apply cint_inv in E as [-> _]. now inv H. Qed.

(** one iteration *)
Lemma iteration_inv S real c st st' : iteration S real c st = Ok st' -> exists m st1,
  stepForward S (si_mps st) = Ok m /\
  st1 = mkSim m (si_start st) (nadd (si_time st) (si_dt st)) (si_end st) (si_dt st) (si_period st) (si_step st + 1) (si_file st) (si_out st) /\
  (if saveCondition st1 then save st1 = Ok st' else st' = st1).
Proof.
  unfold iteration. intros H. binds H. binds H. apply cint_inv in E0 as [-> _]. binds H. exists r. eexists. split; [exact E|split; [reflexivity|]].
  destruct (saveCondition _); auto. now inv H.
Qed.

Definition conf (st0 st : sim) : Prop :=
  si_start st = si_start st0 /\ si_end st = si_end st0 /\ si_dt st = si_dt st0 /\ si_period st = si_period st0.

Lemma reached_inv S real clk st0 k st : fresh st0 -> reached S real clk st0 k st ->
  conf st0 st /\ si_time st = time_at (si_start st0) (si_dt st0) k /\ si_step st = Z.of_nat k /\ steps S k (si_mps st0) (si_mps st) /\
  si_file st = Z.of_nat (List.length (si_out st)).
Proof.
  intros (F1 & F2 & F3 & F4) R. induction R as [st E|k st st' R IH L E].
  - apply save_inv in E. subst. unfold conf. simpl. rewrite F1, F2, F3, F4. simpl. repeat split. constructor.
  - destruct IH as ((C1 & C2 & C3 & C4) & T & K & M & F). apply iteration_inv in E as (m & st1 & Hm & -> & E).
    assert (G : steps S (Datatypes.S k) (si_mps st0) m) by (econstructor; eauto).
    destruct (saveCondition _).
    + apply save_inv in E. subst. unfold conf. simpl. rewrite T, C3, K, F, app_length, C1, C2, C4. simpl. repeat split; auto; lia.
    + subst. unfold conf. simpl. rewrite T, C3, K, F, C1, C2, C4. repeat split; auto; lia.
Qed.

(** the fuel does not matter *)
Lemma loop_reached S real clk st0 : forall fuel k st st', reached S real clk st0 k st -> loop S real clk fuel k st = Ok st' ->
  exists n, reached S real clk st0 (k + n) st' /\ (n <= fuel)%nat /\ nlt (si_time st') (si_end st') = false.
Proof.
  induction fuel as [|fuel IH]; intros k st st' R E; simpl in E; destruct (nlt (si_time st) (si_end st)) eqn:L; try discriminate.
  - inv E. exists 0%nat. rewrite Nat.add_0_r. auto.
  - binds E. assert (R' : reached S real clk st0 (Datatypes.S k) r) by (eapply reached_S; eauto).
    destruct (IH _ _ _ R' E) as (n & Rn & Ln & Tn). exists (Datatypes.S n). rewrite Nat.add_succ_r. split; [exact Rn|split; [lia|auto]].
  - inv E. exists 0%nat. rewrite Nat.add_0_r. split; auto. split; auto. lia.
Qed.
Lemma run_reached S real clk st0 fuel st' : run S real clk fuel st0 = Ok st' ->
  exists n, reached S real clk st0 n st' /\ (n <= fuel)%nat /\ nlt (si_time st') (si_end st') = false.
Proof. unfold run. intros H. binds H. apply (loop_reached S real clk st0 fuel 0 r st'); auto. now constructor. Qed.

Lemma reached_run S real clk st0 : forall n st, reached S real clk st0 n st -> forall fuel, (n <= fuel)%nat ->
  run S real clk fuel st0 = loop S real clk (fuel - n) n st.
Proof.
  intros n st R. induction R as [st E|k st st' R IH L E]; intros fuel Hf.
  - unfold run. rewrite E. simpl. now rewrite Nat.sub_0_r.
  - rewrite IH by lia. replace (fuel - k)%nat with (Datatypes.S (fuel - Datatypes.S k)) by lia. simpl. now rewrite L, E.
Qed.
Lemma reached_fun S real clk st0 k st : reached S real clk st0 k st -> forall st', reached S real clk st0 k st' -> st' = st.
Proof.
  induction 1 as [st E|k st st1 R IH L E]; intros st' R'.
  - inv R'. congruence.
  - inv R'. apply IH in H0. subst. congruence.
Qed.
Lemma reached_le S real clk st0 k st : reached S real clk st0 k st -> forall j, (j < k)%nat -> exists st1, reached S real clk st0 j st1 /\ nlt (si_time st1) (si_end st1) = true.
Proof.
  induction 1 as [st E|k st st1 R IH L E]; intros j Hj; [lia|].
  destruct (Nat.eq_dec j k) as [->|]; [eauto|]. apply IH. lia.
Qed.

(** *** how the loop ends, in terms of the times alone *)
Lemma run_times S real clk st0 fuel st' : fresh st0 -> run S real clk fuel st0 = Ok st' ->
  exists k, (k <= fuel)%nat /\ si_step st' = Z.of_nat k /\ si_time st' = time_at (si_start st0) (si_dt st0) k /\
    steps S k (si_mps st0) (si_mps st') /\
    nlt (time_at (si_start st0) (si_dt st0) k) (si_end st0) = false /\
    (forall j, (j < k)%nat -> nlt (time_at (si_start st0) (si_dt st0) j) (si_end st0) = true).
Proof.
  intros F E. apply run_reached in E as (k & R & Hk & T). destruct (reached_inv _ _ _ _ _ _ F R) as ((_ & C2 & _) & Tk & K & M & _).
  exists k. rewrite Tk, C2 in T. split; [auto|split; [auto|split; [auto|split; [auto|split; [auto|]]]]].
  intros j Hj. destruct (reached_le _ _ _ _ _ _ R j Hj) as (st1 & R1 & L). destruct (reached_inv _ _ _ _ _ _ F R1) as ((_ & C2' & _) & Tj & _). now rewrite Tj, C2' in L.
Qed.

(** a run that needs at most [n] iterations ends, unless something in it goes wrong *)
Definition breaks (S : solver) (real : Z) (clk : nat -> Z * Z) (st0 : sim) (o : outcome sim) : Prop :=
  (save st0 = o \/ exists k st1, reached S real clk st0 k st1 /\ nlt (si_time st1) (si_end st1) = true /\ iteration S real (clk k) st1 = o) /\ (forall x, o <> Ok x).
Lemma run_ends S real clk st0 n : fresh st0 -> nlt (time_at (si_start st0) (si_dt st0) n) (si_end st0) = false ->
  exists o, (forall fuel, (n <= fuel)%nat -> run S real clk fuel st0 = o) /\ ((exists st', o = Ok st') \/ breaks S real clk st0 o).
Proof.
  intros F L.
  assert (G : forall m k st, reached S real clk st0 k st -> (k + m = n)%nat ->
     exists o, (forall fuel, (m <= fuel)%nat -> loop S real clk fuel k st = o) /\ ((exists st', o = Ok st') \/ breaks S real clk st0 o)).
  { induction m as [|m IH]; intros k st R Ek.
    - destruct (reached_inv _ _ _ _ _ _ F R) as ((_ & C2 & _) & Tk & _). replace k with n in * by lia. rewrite <- C2, <- Tk in L.
      exists (Ok st). split; eauto. intros fuel _. destruct fuel; simpl; now rewrite L.
    - destruct (nlt (si_time st) (si_end st)) eqn:Lk.
      + destruct (iteration S real (clk k) st) as [st'| | | | |] eqn:I.
        * destruct (IH (Datatypes.S k) st') as (o & Ho & D); [eapply reached_S; eauto|lia|]. exists o. split; auto. intros fuel Hf. destruct fuel; [lia|]. simpl. rewrite Lk, I. apply Ho. lia.
        * exists (Undef u). split; [intros [|fuel] Hf; [lia|]; simpl; now rewrite Lk, I|]. right. split; [|discriminate]. right. eauto.
        * exists AssertFail. split; [intros [|fuel] Hf; [lia|]; simpl; now rewrite Lk, I|]. right. split; [|discriminate]. right. eauto.
        * exists (Exit code). split; [intros [|fuel] Hf; [lia|]; simpl; now rewrite Lk, I|]. right. split; [|discriminate]. right. eauto.
        * exists Throw. split; [intros [|fuel] Hf; [lia|]; simpl; now rewrite Lk, I|]. right. split; [|discriminate]. right. eauto.
        * exists Diverge. split; [intros [|fuel] Hf; [lia|]; simpl; now rewrite Lk, I|]. right. split; [|discriminate]. right. eauto.
      + exists (Ok st). split; eauto. intros fuel _. destruct fuel; simpl; now rewrite Lk. }
  destruct (save st0) as [st| | | | |] eqn:E.
  - destruct (G n 0%nat st) as (o & Ho & D); [now constructor|lia|]. exists o. split; auto. intros fuel Hf. unfold run. rewrite E. simpl. auto.
  - exists (Undef u). split; [intros; unfold run; now rewrite E|]. right. split; [auto|discriminate].
  - exists AssertFail. split; [intros; unfold run; now rewrite E|]. right. split; [auto|discriminate].
  - exists (Exit code). split; [intros; unfold run; now rewrite E|]. right. split; [auto|discriminate].
  - exists Throw. split; [intros; unfold run; now rewrite E|]. right. split; [auto|discriminate].
  - exists Diverge. split; [intros; unfold run; now rewrite E|]. right. split; [auto|discriminate].
Qed.

(** time that stands still below the end time *)
Lemma run_stuck S real clk st0 n fuel st' : fresh st0 -> nadd (time_at (si_start st0) (si_dt st0) n) (si_dt st0) = time_at (si_start st0) (si_dt st0) n ->
  (forall j, (j <= n)%nat -> nlt (time_at (si_start st0) (si_dt st0) j) (si_end st0) = true) -> run S real clk fuel st0 <> Ok st'.
Proof.
  intros F A L E. apply run_times in E as (k & _ & _ & _ & _ & X & _); auto.
  assert (G : forall j, time_at (si_start st0) (si_dt st0) (n + j) = time_at (si_start st0) (si_dt st0) n).
  { induction j as [|j IH]; [now rewrite Nat.add_0_r|]. rewrite Nat.add_succ_r. simpl. now rewrite IH. }
  destruct (Nat.le_gt_cases k n) as [H|H]; [rewrite L in X by auto; discriminate|].
  replace k with (n + (k - n))%nat in X by lia. rewrite G, L in X by auto. discriminate.
Qed.

(** *** outputs *)
Lemma due_save st0 st f : conf st0 st -> si_file st = Z.of_nat f -> saveCondition st = true <-> due st0 f (si_time st).
Proof. intros (C1 & _ & _ & C4) F. unfold saveCondition, due. rewrite C1, C4, F. tauto. Qed.

Lemma reached_schedule S real clk st0 k st : fresh st0 -> reached S real clk st0 k st -> schedule S st0 k (si_out st).
Proof.
  intros Fr R. induction R as [st E|k st st' R IH L E].
  - apply save_inv in E. subst. simpl. destruct Fr as (F1 & F2 & F3 & F4). rewrite F1, F2, F3, F4. simpl. split; [|split; [|split]].
    + eexists. split; reflexivity.
    + intros [|[|j]] o H; simpl in H; try discriminate. inv H. simpl. split; auto. exists 0%nat. simpl. repeat split; auto. constructor.
    + intros [|[|j]] o o' H H'; simpl in H'; discriminate.
    + intros [|[|j]] o H _; simpl in H; try discriminate. inv H. simpl. intros. lia.
  - destruct (reached_inv _ _ _ _ _ _ Fr R) as (C & T & K & M & F). destruct IH as (I1 & I2 & I3 & I4).
    assert (R' := reached_S _ _ _ _ _ _ _ R L E). destruct (reached_inv _ _ _ _ _ _ Fr R') as (C' & T' & K' & M' & F').
    apply iteration_inv in E as (m & st1 & Hm & D1 & E).
    assert (C1 : conf st0 st1) by (subst st1; exact C). assert (F1 : si_file st1 = Z.of_nat (List.length (si_out st))) by (subst st1; exact F).
    assert (T1 : si_time st1 = time_at (si_start st0) (si_dt st0) (Datatypes.S k)).
    { subst st1. simpl. destruct C as (_ & _ & -> & _). now rewrite T. }
    assert (O1 : si_out st1 = si_out st) by (subst st1; reflexivity). assert (K1 : si_step st1 = Z.of_nat (Datatypes.S k)) by (subst st1; simpl; rewrite K; lia).
    pose proof (due_save st0 st1 _ C1 F1) as D. rewrite T1 in D.
    assert (M1 : steps S (Datatypes.S k) (si_mps st0) (si_mps st1)) by (subst st1; econstructor; eauto).
    clear D1. destruct (saveCondition st1) eqn:Sc.
    + apply save_inv in E. subst st'. cbn [si_out]. rewrite O1. set (new := mkO _ _ _ _). assert (Dt : due st0 (List.length (si_out st)) (time_at (si_start st0) (si_dt st0) (Datatypes.S k))) by now apply D.
      assert (Nz : (0 < List.length (si_out st))%nat). { destruct I1 as (o & H & _). apply nth_error_Some. congruence. }
      split; [|split; [|split]].
      * destruct I1 as (o & H & Ho). exists o. rewrite nth_error_app1; auto.
      * intros j o H. destruct (Nat.lt_ge_cases j (List.length (si_out st))) as [Hj|Hj].
        -- rewrite nth_error_app1 in H by auto. destruct (I2 _ _ H) as (A & s & B & B1 & B2). split; auto. exists s. split; auto.
        -- rewrite nth_error_app2 in H by auto. destruct (j - List.length (si_out st))%nat as [|x] eqn:Ej; simpl in H; [|destruct x; discriminate]. inv H.
           unfold new. simpl. replace j with (List.length (si_out st)) by lia. split; auto. exists (Datatypes.S k). repeat split; auto.
      * intros j o o' H H'. destruct (Nat.lt_ge_cases (Datatypes.S j) (List.length (si_out st))) as [Hj|Hj].
        -- rewrite nth_error_app1 in H by lia. rewrite nth_error_app1 in H' by auto. now apply I3.
        -- assert (Ej : Datatypes.S j = List.length (si_out st)).
           { assert (Datatypes.S j < List.length (si_out st ++ [new]))%nat by (apply nth_error_Some; congruence). rewrite app_length in *. simpl in *. lia. }
           rewrite nth_error_app1 in H by lia. rewrite nth_error_app2, Ej, Nat.sub_diag in H' by lia. simpl in H'. inv H'.
           destruct (I2 _ _ H) as (_ & s & Hs & Hs' & _). unfold new. simpl o_step. simpl o_time. rewrite T1, K1, Ej. split; [lia|split; [exact Dt|]].
           intros s' Hs2. rewrite <- Ej. apply (I4 j o H Ej). lia.
      * intros j o H Hj. rewrite app_length in Hj. simpl in Hj. assert (j = List.length (si_out st)) by lia. subst j. rewrite nth_error_app2, Nat.sub_diag in H by lia. simpl in H. inv H. unfold new. simpl. rewrite K1. intros. lia.
    + subst st'. rewrite O1. split; [|split; [|split]]; auto.
      * intros j o H. destruct (I2 _ _ H) as (A & s & B & B1 & B2). split; auto. exists s. split; auto.
      * intros j o H Hj s Hs. destruct (Z.eq_dec (Z.of_nat s) (Z.of_nat (Datatypes.S k))) as [Es|].
        -- apply Nat2Z.inj in Es. subst s. rewrite Hj. intros Hd. apply D in Hd. discriminate.
        -- apply (I4 j o H Hj). lia.
Qed.

Lemma reached_plan S real clk st0 k st : fresh st0 -> reached S real clk st0 k st ->
  si_file st = fst (plan st0 k) /\ map o_step (si_out st) = rev (snd (plan st0 k)).
Proof.
  intros Fr R. induction R as [st E|k st st' R IH L E].
  - apply save_inv in E. subst. destruct Fr as (F1 & F2 & F3 & F4). simpl. now rewrite F2, F3, F4.
  - destruct (reached_inv _ _ _ _ _ _ Fr R) as ((C1 & C2 & C3 & C4) & T & K & M & F). destruct IH as (If & Io).
    apply iteration_inv in E as (m & st1 & Hm & -> & E). cbn [plan]. destruct (plan st0 k) as [f l]. simpl in If, Io. rewrite If in E.
    unfold saveCondition in E. simpl in E. rewrite C1, C3, C4, T in E. simpl in *.
    destruct (nle _ _).
    + apply save_inv in E. subst st'. simpl. rewrite map_app, Io. simpl. split; [congruence|]. f_equal. f_equal. lia.
    + subst st'. simpl. split; congruence.
Qed.
Lemma newSim_fields (t : num) s m : let st := newSim t s m in
  fresh st /\ si_start st = t /\ si_end st = s_endTime s /\ si_dt st = s_dt s /\ si_period st = s_outputPeriod s /\ si_mps st = m.
Proof. repeat split. Qed.

End SimFacts.

(** *** file names *)
Lemma outputName_inj z z' e : 0 <= z -> 0 <= z' -> outputName z e = outputName z' e -> z = z'.
Proof.
  intros P P' E. unfold outputName in E. apply append_inj_l in E.
  apply (f_equal list_ascii_of_string) in E.
  assert (A : forall a b, list_ascii_of_string (a ++ b)%string = list_ascii_of_string a ++ list_ascii_of_string b) by (induction a; intros; simpl; auto; now rewrite IHa).
  rewrite !A in E. apply app_inv_tail in E. apply (setw_dec_inj 4); auto. rewrite <- (string_of_list_ascii_of_string (setw 4 "0" (dec z))), E. apply string_of_list_ascii_of_string.
Qed.
Lemma outputName_order z z' e : 0 <= z < z' -> z' < 10000 -> String.compare (outputName z e) (outputName z' e) = Lt.
Proof.
  intros P P'. unfold outputName. rewrite append_compare, !setw_dec by lia. apply text_compare; try (apply padded_digit; lia).
  - rewrite !padded_length by lia. reflexivity.
  - rewrite !padded_value by lia. lia.
Qed.

(** *** durations *)
Lemma hms_spec d : exists h m s, calHourMinuteSecond d = (dec h ++ "h " ++ setw 2 "0" (dec m) ++ "m " ++ dec s ++ "s")%string /\
  3600 * h + 60 * m + s = Z.quot d 1000000000 /\ Z.abs m < 60 /\ Z.abs s < 60 /\ (0 <= d -> 0 <= h /\ 0 <= m /\ 0 <= s) /\ (d <= 0 -> h <= 0 /\ m <= 0 /\ s <= 0).
Proof.
  unfold calHourMinuteSecond. set (h := Z.quot d 3600000000000). set (d1 := d - h * 3600000000000). set (m := Z.quot d1 60000000000). set (d2 := d1 - m * 60000000000). set (s := Z.quot d2 1000000000).
  exists h, m, s. split; [reflexivity|].
  pose proof (Z.quot_rem d 3600000000000 ltac:(lia)) as Q1. pose proof (Z.quot_rem d1 60000000000 ltac:(lia)) as Q2. pose proof (Z.quot_rem d2 1000000000 ltac:(lia)) as Q3. pose proof (Z.quot_rem d 1000000000 ltac:(lia)) as Q4.
  fold h in Q1. fold m in Q2. fold s in Q3. set (q := Z.quot d 1000000000) in *.
  assert (E1 : d1 = Z.rem d 3600000000000) by (unfold d1; lia). assert (E2 : d2 = Z.rem d1 60000000000) by (unfold d2; lia).
  destruct (Z.le_gt_cases 0 d) as [P|P].
  - pose proof (Z.rem_bound_pos d 3600000000000 ltac:(lia) ltac:(lia)) as B1. pose proof (Z.rem_bound_pos d1 60000000000 ltac:(lia) ltac:(lia)) as B2.
    pose proof (Z.rem_bound_pos d2 1000000000 ltac:(lia) ltac:(lia)) as B3. pose proof (Z.rem_bound_pos d 1000000000 ltac:(lia) ltac:(lia)) as B4. lia.
  - assert (P1 : d <= 0) by lia. pose proof (Z.rem_bound_pos_neg d 3600000000000 ltac:(lia) P1) as B1. pose proof (Z.rem_bound_pos_neg d1 60000000000 ltac:(lia) ltac:(lia)) as B2.
    pose proof (Z.rem_bound_pos_neg d2 1000000000 ltac:(lia) ltac:(lia)) as B3. pose proof (Z.rem_bound_pos_neg d 1000000000 ltac:(lia) P1) as B4. lia.
Qed.
