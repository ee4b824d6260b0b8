(** * The simulation loop in exact arithmetic *)
From Coq Require Import Reals Lra.
From Verif Require Export NumR SimFacts TotalR.
Open Scope R_scope.
#[local] Remove Hints F64 : typeclass_instances.

Lemma time_at_R (t dt : R) k : @time_at Rnum t dt k = t + IZR (Z.of_nat k) * dt.
Proof.
  induction k as [|k IH]; [simpl; lra|]. change (@time_at Rnum t dt (Datatypes.S k)) with (@time_at Rnum t dt k + dt). rewrite IH, Nat2Z.inj_succ, succ_IZR. lra.
Qed.
Definition needed (st : @sim Rnum) : Z := Z.max 0 (Zceil ((si_end st - si_start st) / si_dt st)).

(** facts about real numbers *)
Lemma ceil_le (x d : R) (s : Z) : 0 < d -> x <= IZR s * d <-> (Zceil (x / d) <= s)%Z.
Proof.
  intros D. assert (X : x = x / d * d) by (field; lra). split; intros H.
  - apply Zceil_glb. rewrite X in H. nra.
  - assert (x / d <= IZR s). { apply Rle_trans with (IZR (Zceil (x / d))); [apply Zceil_ub|now apply IZR_le]. } rewrite X. nra.
Qed.
Lemma ceil_lt (x d : R) (s : Z) : 0 < d -> IZR s * d < x <-> (s < Zceil (x / d))%Z.
Proof. intros D. rewrite Z.lt_nge, <- ceil_le by auto. split; intros; lra. Qed.
Lemma ceil_succ (x d P : R) : 0 < d -> d <= P -> (Zceil (x / d) < Zceil ((x + P) / d))%Z.
Proof. intros D H. apply ceil_lt; auto. assert (IZR (Zceil (x / d) - 1) * d < x). { apply ceil_lt; auto. lia. } rewrite minus_IZR in H0. lra. Qed.
Lemma ceil_late (x d : R) : 0 < d -> x <= IZR (Zceil (x / d)) * d < x + d.
Proof. intros D. split. - apply ceil_le; auto. lia. - assert (IZR (Zceil (x / d) - 1) * d < x). { apply ceil_lt; auto. lia. } rewrite minus_IZR in H. lra. Qed.

Lemma not_yet (st : @sim Rnum) k : 0 < si_dt st -> @nlt Rnum (@time_at Rnum (si_start st) (si_dt st) k) (si_end st) = true <-> (Z.of_nat k < Zceil ((si_end st - si_start st) / si_dt st))%Z.
Proof.
  intros D. rewrite time_at_R, <- (ceil_lt _ _ _ D). simpl.
  destruct (Rlt_bool_spec (si_start st + IZR (Z.of_nat k) * si_dt st) (si_end st)) as [L|L]; split; intros; auto; try discriminate; lra.
Qed.
Lemma time_over (st : @sim Rnum) k : 0 < si_dt st -> @nlt Rnum (@time_at Rnum (si_start st) (si_dt st) k) (si_end st) = false <-> (Zceil ((si_end st - si_start st) / si_dt st) <= Z.of_nat k)%Z.
Proof. intros D. rewrite <- not_true_iff_false, not_yet by auto. lia. Qed.

Lemma C32_count_lemma S real clk fuel (st st' : @sim Rnum) : fresh st -> 0 < si_dt st -> run S real clk fuel st = Ok st' ->
  si_step st' = needed st /\ si_time st' = si_start st + IZR (needed st) * si_dt st /\
  (forall k, (0 <= k < needed st)%Z -> si_start st + IZR k * si_dt st < si_end st) /\ si_end st <= si_time st' /\
  steps S (Z.to_nat (needed st)) (si_mps st) (si_mps st').
Proof.
  intros F D E. apply run_times in E as (k & _ & K & T & M & L & B); auto.
  assert (X : needed st = Z.of_nat k).
  { apply time_over in L; auto. unfold needed. destruct k as [|k]; [lia|]. specialize (B k ltac:(lia)). apply not_yet in B; auto. lia. }
  rewrite X, K, T, time_at_R, Nat2Z.id. repeat split; auto.
  - intros j Hj. specialize (B (Z.to_nat j) ltac:(lia)). rewrite time_at_R, Z2Nat.id in B by lia. simpl in B. destruct (Rlt_bool_spec (si_start st + IZR j * si_dt st) (si_end st)); auto; discriminate.
  - rewrite time_at_R in L. simpl in L. destruct (Rlt_bool_spec (si_start st + IZR (Z.of_nat k) * si_dt st) (si_end st)); auto; discriminate.
Qed.
Lemma C32_ends_lemma S real clk (st : @sim Rnum) : fresh st -> 0 < si_dt st ->
  exists o, (forall fuel, (needed st <= Z.of_nat fuel)%Z -> run S real clk fuel st = o) /\ ((exists st', o = Ok st') \/ breaks S real clk st o).
Proof.
  intros F D. destruct (run_ends S real clk st (Z.to_nat (needed st)) F) as (o & Ho & X).
  - apply time_over; auto. rewrite Z2Nat.id; unfold needed; lia.
  - exists o. split; auto. intros fuel Hf. apply Ho. lia.
Qed.
Lemma C32_backwards_lemma S real clk fuel (st st' : @sim Rnum) : fresh st -> si_dt st <= 0 -> si_start st < si_end st -> run S real clk fuel st <> Ok st'.
Proof.
  intros F D L E. apply run_times in E as (k & _ & _ & _ & _ & X & _); auto. rewrite time_at_R in X. simpl in X.
  pose proof (IZR_le 0 (Z.of_nat k) ltac:(lia)). destruct (Rlt_bool_spec (si_start st + IZR (Z.of_nat k) * si_dt st) (si_end st)); [discriminate|nra].
Qed.

(** *** the schedule *)
Lemma due_R (st : @sim Rnum) j s : 0 < si_dt st -> due st j (@time_at Rnum (si_start st) (si_dt st) s) <-> (Zceil (IZR (Z.of_nat j) * si_period st / si_dt st) <= Z.of_nat s)%Z.
Proof.
  intros D. unfold due. rewrite time_at_R, <- (ceil_le _ _ _ D). simpl. rewrite (Rmult_comm (si_period st)).
  destruct (Rle_bool_spec (IZR (Z.of_nat j) * si_period st) (si_start st + IZR (Z.of_nat s) * si_dt st - si_start st)) as [L|L]; split; intros; auto; try discriminate; lra.
Qed.
(** the step after which file [j] is due *)
Definition due_step (st : @sim Rnum) (j : nat) : Z := Zceil (IZR (Z.of_nat j) * si_period st / si_dt st).
Lemma due_step_0 st : due_step st 0 = 0%Z.
Proof. unfold due_step. simpl. rewrite Rmult_0_l. unfold Rdiv. rewrite Rmult_0_l. apply (Zceil_IZR 0). Qed.
Lemma due_step_lt st j : 0 < si_dt st -> si_dt st <= si_period st -> (due_step st j < due_step st (Datatypes.S j))%Z.
Proof.
  intros D P. unfold due_step. rewrite Nat2Z.inj_succ, succ_IZR, Rmult_plus_distr_r, Rmult_1_l. now apply ceil_succ.
Qed.
Lemma due_step_mono st i j : 0 < si_dt st -> si_dt st <= si_period st -> (i <= j)%nat -> (due_step st i <= due_step st j)%Z.
Proof. intros D P. induction 1 as [|j _ IH]; [lia|]. pose proof (due_step_lt st j D P). lia. Qed.

Lemma schedule_step S (st : @sim Rnum) k log : 0 < si_dt st -> si_dt st <= si_period st -> schedule S st k log ->
  forall j o, nth_error log j = Some o -> o_step o = due_step st j.
Proof.
  intros D P (I1 & I2 & I3 & I4). induction j as [|j IH]; intros o H.
  - destruct I1 as (o' & H' & E). rewrite due_step_0. congruence.
  - assert (exists o1, nth_error log j = Some o1) as [o1 H1]. { destruct (nth_error log j) eqn:E; eauto. apply nth_error_None in E. assert (Datatypes.S j < List.length log)%nat by (apply nth_error_Some; congruence). lia. }
    destruct (I3 _ _ _ H1 H) as (L & Du & Nd). destruct (I2 _ _ H) as (_ & s & _ & Es & Et & _). rewrite Et, due_R in Du by auto. fold (due_step st (Datatypes.S j)) in Du.
    pose proof (due_step_lt st j D P). rewrite (IH _ H1) in *. destruct (Z.eq_dec (o_step o) (due_step st (Datatypes.S j))) as [|Ne]; auto. exfalso.
    assert (0 <= due_step st j)%Z by (rewrite <- (due_step_0 st); apply due_step_mono; auto; lia).
    apply (Nd (Z.to_nat (due_step st (Datatypes.S j)))). { rewrite Z2Nat.id by lia. lia. }
    apply due_R; auto. fold (due_step st (Datatypes.S j)). rewrite Z2Nat.id; lia.
Qed.
Lemma schedule_all S (st : @sim Rnum) k log : 0 < si_dt st -> si_dt st <= si_period st -> schedule S st k log ->
  forall j, (j < List.length log)%nat <-> (due_step st j <= Z.of_nat k)%Z.
Proof.
  intros D P Sch j. pose proof Sch as (I1 & I2 & I3 & I4). split; intros H.
  - apply nth_error_Some in H. destruct (nth_error log j) as [o|] eqn:E; [|contradiction]. destruct (I2 _ _ E) as (_ & s & Hs & Es & _).
    rewrite <- (schedule_step S st k log D P Sch j o E). lia.
  - destruct (Nat.lt_ge_cases j (List.length log)); auto. exfalso.
    destruct log as [|o0 log']; [destruct I1 as (o & X & _); discriminate|]. set (n := List.length log') in *.
    assert (exists o, nth_error (o0 :: log') n = Some o) as [o Ho]. { destruct (nth_error (o0 :: log') n) eqn:E; eauto. apply nth_error_None in E. simpl in E. unfold n in E. lia. }
    assert (Lo := schedule_step S st k _ D P Sch n o Ho). pose proof (due_step_lt st n D P). assert (0 <= due_step st n)%Z by (rewrite <- (due_step_0 st); apply due_step_mono; auto; lia).
    pose proof (due_step_mono st (Datatypes.S n) j D P H0).
    apply (I4 n o Ho eq_refl (Z.to_nat (due_step st (Datatypes.S n)))). { rewrite Z2Nat.id by lia. lia. }
    apply due_R; auto. fold (due_step st (Datatypes.S n)). rewrite Z2Nat.id; lia.
Qed.
Lemma due_step_late (st : @sim Rnum) j : 0 < si_dt st ->
  IZR (Z.of_nat j) * si_period st <= IZR (due_step st j) * si_dt st < IZR (Z.of_nat j) * si_period st + si_dt st.
Proof. intros D. now apply ceil_late. Qed.
Lemma C33_lemma S real clk (st st' : @sim Rnum) k : fresh st -> 0 < si_dt st -> si_dt st <= si_period st -> reached S real clk st k st' ->
  (forall j, (j < List.length (si_out st'))%nat <-> (due_step st j <= Z.of_nat k)%Z) /\
  (forall j o, nth_error (si_out st') j = Some o -> o_number o = Z.of_nat j /\ o_step o = due_step st j /\
     steps S (Z.to_nat (due_step st j)) (si_mps st) (o_mps o) /\
     IZR (Z.of_nat j) * si_period st <= o_time o - si_start st < IZR (Z.of_nat j) * si_period st + si_dt st).
Proof.
  intros F D P R. pose proof (reached_schedule _ _ _ _ _ _ F R) as Sch. split; [now apply schedule_all with (1 := D) (3 := Sch)|].
  intros j o H. pose proof (schedule_step S st k _ D P Sch j o H) as E. destruct Sch as (_ & I2 & _). destruct (I2 _ _ H) as (A & s & Hs & Es & Et & M).
  split; auto. split; auto. replace (Z.to_nat (due_step st j)) with s by lia. split; auto. rewrite Et, time_at_R, <- Es, E. pose proof (due_step_late st j D). lra.
Qed.
(** a short period: one file per step *)
Lemma C33_short_lemma S real clk (st st' : @sim Rnum) k : fresh st -> 0 < si_dt st -> si_period st <= si_dt st -> reached S real clk st k st' ->
  List.length (si_out st') = Datatypes.S k /\ (forall j o, nth_error (si_out st') j = Some o -> o_step o = Z.of_nat j).
Proof.
  intros F D P R. induction R as [st1 E|k st1 st2 R IH L E].
  - apply save_inv in E. destruct F as (F1 & F2 & F3 & F4). subst. simpl. rewrite F4. split; auto. intros [|[|j]] o H; simpl in H; try discriminate. inv H. simpl. auto.
  - destruct IH as (I1 & I2). destruct (reached_inv _ _ _ _ _ _ F R) as ((C1 & C2 & C3 & C4) & T & K & M & Ff).
    apply iteration_inv in E as (m & s1 & Hm & -> & E). replace (saveCondition _) with true in E.
    + apply save_inv in E. subst st2. cbn [si_out si_step si_file]. rewrite app_length, I1. simpl. split; [lia|].
      intros j o H. destruct (Nat.lt_ge_cases j (Datatypes.S k)).
      * rewrite nth_error_app1 in H by lia. auto.
      * rewrite nth_error_app2 in H by lia. rewrite I1 in H. destruct (j - Datatypes.S k)%nat as [|x] eqn:Ej; simpl in H; [|destruct x; discriminate]. inv H. simpl. lia.
    + symmetry. unfold saveCondition. simpl. rewrite C1, C3, C4, T, time_at_R, Ff, I1. apply Rle_bool_true. rewrite Nat2Z.inj_succ, succ_IZR.
      pose proof (IZR_le 0 (Z.of_nat k) ltac:(lia)). nra.
Qed.

(** ** Runs that complete *)
Definition clock_fine (real : Z) (clk : nat -> Z * Z) (st : @sim Rnum) : Prop := forall k, (Z.of_nat k < needed st)%Z ->
  let '(a, b) := clk k in (0 <= b - real <= 2 ^ 62)%Z /\ (0 <= b - a <= 2 ^ 62)%Z /\ ((b - real) * needed st <= 2 ^ 62 * (Z.of_nat k + 1))%Z.
Lemma estimate (e k n : Z) (T d : R) : (0 <= e)%Z -> (0 < k)%Z -> 0 < d -> 0 <= T -> T <= IZR n * d -> (e * n <= 2 ^ 62 * k)%Z ->
  (0 <= Ztrunc (IZR e / (IZR k * 1000000000) * T / d * 1000000000) <= 2 ^ 62)%Z.
Proof.
  intros He Hk Hd HT HTn Hn. apply IZR_le in He. apply IZR_lt in Hk. apply IZR_le in Hn. rewrite !mult_IZR in Hn.
  replace (IZR e / (IZR k * 1000000000) * T / d * 1000000000) with (IZR e * (T / d) / IZR k) by (field; lra).
  assert (T / d <= IZR n). { apply Rmult_le_reg_r with d; auto. unfold Rdiv. rewrite Rmult_assoc, Rinv_l by lra. lra. }
  assert (0 <= T / d). { apply Rmult_le_pos; auto. left. now apply Rinv_0_lt_compat. }
  assert (0 <= IZR e * (T / d) / IZR k). { apply Rmult_le_pos; [nra|]. left. now apply Rinv_0_lt_compat. }
  assert (IZR e * (T / d) / IZR k <= IZR (2 ^ 62)). { apply Rmult_le_reg_r with (IZR k); auto. unfold Rdiv at 1. rewrite Rmult_assoc, Rinv_l by lra. nra. }
  split. - rewrite <- (Ztrunc_IZR 0). now apply Ztrunc_le. - rewrite <- (Ztrunc_IZR (2 ^ 62)). now apply Ztrunc_le.
Qed.
Lemma C32_completes_lemma S real clk (st : @sim Rnum) : fresh st -> 0 < si_dt st -> ready (si_mps st) -> sized S ->
  s_asserts (m_settings (si_mps st)) = false ->
  (forall det q, m_calc (si_mps st) = Implicit det q -> q_asserts q = false /\ forall k ts b, S k ts b <> None) ->
  (needed st < int_max)%Z -> clock_fine real clk st ->
  exists st', run S real clk (Z.to_nat (needed st)) st = Ok st'.
Proof.
  intros F D RD SZ A B Nn Ck. destruct (C32_ends_lemma S real clk st F D) as (o & Ho & [[st' ->]|[Br No]]).
  - exists st'. apply Ho. unfold needed. lia.
  - exfalso. destruct Br as [E|(k & st1 & R & L & E)].
    + unfold save in E. destruct F as (_ & _ & F3 & _). rewrite F3 in E. simpl in E. symmetry in E. exact (No _ E).
    + destruct (reached_inv _ _ _ _ _ _ F R) as ((C1 & C2 & C3 & C4) & T & K & M & Ff).
      assert (Lk : (Z.of_nat k < needed st)%Z). { rewrite T, C2 in L. apply not_yet in L; auto. unfold needed. lia. }
      assert (Lf : (List.length (si_out st1) <= Datatypes.S k)%nat).
      { clear - F R. induction R as [st1 E|k st1 st2 R IH L E].
        - apply save_inv in E. subst. destruct F as (_ & _ & _ & ->). simpl. lia.
        - apply iteration_inv in E as (m & s1 & _ & -> & E). destruct (saveCondition _).
          + apply save_inv in E. subst. cbn [si_out]. rewrite app_length. simpl. lia.
          + subst. cbn [si_out]. lia. }
      destruct (steps_static _ _ _ _ M) as (ES & EG & EK & _).
      destruct (C51_exact_lemma S (si_mps st1) (steps_ready _ _ _ _ M RD) SZ) as [[m2 E2]|[[Dg _]|[[det [q Kq]] [(i & ts & b & Z) _]]]].
      2:{ unfold dbg_of in Dg. rewrite ES, A in Dg. simpl in Dg. destruct (m_calc (si_mps st1)) as [det q|] eqn:Kq; [|discriminate]. destruct (B det q (eq_sym EK)). congruence. }
      2:{ rewrite EK in Kq. destruct (B det q Kq) as [_ H]. exact (H _ _ _ Z). }
      unfold iteration in E. rewrite E2 in E. cbn [bind] in E. rewrite K, cint_ok in E by (apply in_int_spec; unfold int_min, int_max in *; lia). cbn [bind] in E.
      specialize (Ck k Lk). destruct (clk k) as [a b]. destruct Ck as (Ca & Cb & Cc).
      assert (I64 : forall z, (- 2 ^ 62 <= z <= 2 ^ 62)%Z -> cint64 z = Ok z). { intros z Hz. unfold cint64, in_int64, int64_min, int64_max. destruct (Z.leb_spec (-9223372036854775808) z); [|lia]. destruct (Z.leb_spec z 9223372036854775807); [reflexivity|lia]. }
      unfold timeStepReport in E. rewrite (I64 (b - real)%Z) in E by lia. cbn [bind si_step si_end si_start si_dt] in E.
      destruct (Z.eqb_spec (Z.of_nat k + 1) 0); [lia|].
      unfold to_int64 in E. cbn [ntrunc Rnum nofZ ndiv nmul nsub] in E.
      pose proof (estimate (b - real) (Z.of_nat k + 1) (needed st) (si_end st1 - si_start st1) (si_dt st1) ltac:(lia) ltac:(lia)) as Es.
      rewrite C1, C2, C3 in Es. rewrite C1, C2, C3 in E.
      assert (Hn : si_end st - si_start st <= IZR (needed st) * si_dt st). { apply (proj2 (ceil_le _ _ _ D)). unfold needed. lia. }
      assert (Hs : si_start st <= si_end st). { destruct (Rle_dec (si_start st) (si_end st)); auto. exfalso. assert (Zceil ((si_end st - si_start st) / si_dt st) <= 0)%Z. { apply ceil_le; auto. lra. } unfold needed in Lk. lia. }
      specialize (Es D ltac:(lra) Hn Cc). set (z := Ztrunc _) in *.
      assert (Iz : in_int64 z = true). { unfold in_int64, int64_min, int64_max. destruct (Z.leb_spec (-9223372036854775808) z); [|lia]. destruct (Z.leb_spec z 9223372036854775807); [reflexivity|lia]. }
      change (@num Rnum) with R in E.
      rewrite Iz in E. cbn [bind] in E. rewrite I64 in E by lia. cbn [bind] in E. rewrite (I64 (b - a)%Z) in E by lia. cbn [bind] in E.
      match type of E with (if ?c then _ else _) = _ => destruct c end.
      * unfold save in E. cbn [si_file] in E. rewrite Ff, cint_ok in E. { cbn [bind] in E. symmetry in E. exact (No _ E). }
        apply in_int_spec. unfold int_min, int_max in *. lia.
      * symmetry in E. exact (No _ E).
Qed.
