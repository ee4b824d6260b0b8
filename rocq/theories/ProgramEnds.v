(** * How the program and its time loop can end *)
From Coq Require Import Reals Lra String.
From Flocq Require Import Core.Core IEEE754.BinarySingleNaN.
From Verif Require Import FloatFacts SimF TotalR NanFacts.
From Verif Require Export SpecEnds ProgramFacts.
Open Scope list_scope.
Open Scope Z_scope.
#[local] Remove Hints Rnum : typeclass_instances.

Section Ends.
Variable parse : list ascii -> option node.
Variable as_int : list ascii -> option Z.
Variable as_dbl : list ascii -> option f64.
Variable as_bool : list ascii -> option bool.
Variable cell_int : list ascii -> option Z.
Variable cell_dbl : list ascii -> option f64.
Variable fsin fcos : f64 -> f64.
Variable M_PI : f64.
Variable big : bool.
Variable dbg : bool.
Notation load := (load parse as_int as_dbl as_bool cell_int cell_dbl).
Notation program := (program parse as_int as_dbl as_bool cell_int cell_dbl fsin fcos M_PI big dbg).

(** ** Writing the files adds no other ends *)
Definition small (bin : bool) (st : @sim F64) : Prop := bin = true -> Z.of_nat (List.length (m_ps (si_mps st))) * 3 <= int_max.
Lemma small_fine bin (o : @output F64) : (bin = true -> Z.of_nat (List.length (m_ps (o_mps o))) * 3 <= int_max) -> vtu_fine big bin o.
Proof.
  intros H. unfold vtu_fine, vtu_file. destruct bin.
  - assert (I : in_int (Z.of_nat (List.length (m_ps (o_mps o))) * 3) = true).
    { unfold in_int. apply andb_true_iff. split; apply Z.leb_le; [unfold int_min; lia|auto]. }
    eexists. split; [|discriminate]. intros _. unfold toVtuBinary, cint. rewrite I. reflexivity.
  - eexists. split; [discriminate|reflexivity].
Qed.
Lemma save_small bin (st st' : @sim F64) : small bin st -> save st = Ok st' -> small bin st' /\ Forall (vtu_fine big bin) (news st st').
Proof.
  intros H E. pose proof (save_inv _ _ E) as F. split; [rewrite F; exact H|]. destruct (save_adds _ _ E) as (l & A). rewrite (news_of _ _ _ A).
  destruct A as (A & _). rewrite F in A. cbn [si_out] in A. apply app_inv_head in A. subst l. constructor; [|constructor]. apply small_fine. exact H.
Qed.
Lemma iteration_small bin S real c (st st' : @sim F64) : small bin st -> iteration S real c st = Ok st' -> small bin st' /\ Forall (vtu_fine big bin) (news st st').
Proof.
  intros H E. pose proof (iteration_adds _ _ _ _ _ E) as (l & A). rewrite (news_of _ _ _ A).
  apply iteration_inv in E as (m & st1 & Hm & E1 & E). assert (L := step_same_id _ _ _ Hm). apply Forall2_length in L.
  assert (H1 : small bin st1) by (rewrite E1; unfold small in *; cbn [si_mps]; rewrite <- L; exact H).
  destruct (saveCondition st1) eqn:C.
  - destruct (save_small bin _ _ H1 E) as (S1 & _). split; [exact S1|]. apply save_inv in E. destruct A as (A & _). rewrite E in A. cbn [si_out] in A.
    rewrite E1 in A. cbn [si_out] in A. apply app_inv_head in A. subst l. constructor; [|constructor]. apply small_fine. rewrite E1 in H1. exact H1.
  - subst st'. split; [exact H1|]. destruct A as (A & _). rewrite E1 in A. cbn [si_out] in A. rewrite <- (app_nil_r (si_out st)) in A at 1. apply app_inv_head in A. subst l. constructor.
Qed.
Lemma loopFiles_ends S real clk bin out : forall fuel k (st : @sim F64) fs, small bin st -> 0 <= si_file st -> roomy out fs ->
  snd (loopFiles big S real clk bin out fuel k st fs) = loop S real clk fuel k st.
Proof.
  induction fuel as [|fuel IH]; intros k st fs H P R; cbn [loopFiles loop]; destruct (nlt (si_time st) (si_end st)); try reflexivity.
  unfold after at 1, ret at 1. destruct (iteration S real (clk k) st) as [st'|u| |c| |] eqn:E; try reflexivity. cbn [bind].
  destruct (iteration_small bin _ _ _ _ _ H E) as (H' & V). destruct (iteration_adds _ _ _ _ _ E) as (l & A). destruct (adds_nonneg _ _ _ P A) as (P1 & P2).
  destruct (all_done big bin out (news st st') fs R) as (f1 & E1 & R1); [rewrite (news_of _ _ _ A); exact P1|exact V|].
  unfold after. rewrite E1. apply IH; assumption.
Qed.
Lemma runFiles_ends S real clk bin out fuel (st : @sim F64) fs : small bin st -> 0 <= si_file st -> roomy out fs ->
  snd (runFiles big S real clk bin out fuel st fs) = run S real clk fuel st.
Proof.
  intros H P R. unfold runFiles, run. unfold after at 1, ret at 1. destruct (save st) as [st'|u| |c| |] eqn:E; try reflexivity. cbn [bind].
  destruct (save_small bin _ _ H E) as (H' & V). destruct (save_adds _ _ E) as (l & A). destruct (adds_nonneg _ _ _ P A) as (P1 & P2).
  destruct (all_done big bin out (news st st') fs R) as (f1 & E1 & R1); [rewrite (news_of _ _ _ A); exact P1|exact V|].
  unfold after. rewrite E1. apply loopFiles_ends; assumption.
Qed.
Lemma program_ends S real clk fuel setting out fs f1 i m :
  fs setting <> None -> fs out = Some Folder ->
  load dbg setting out fs = (f1, Ok i) -> room out f1 -> factoryCreate fsin fcos M_PI (i_settings i) (i_particles i) = Ok m ->
  (s_vtkBinary (i_settings i) = true -> Z.of_nat (List.length (i_particles i)) * 3 <= int_max) ->
  snd (program S real clk fuel setting out fs) = run S real clk fuel (newSim (i_start i) (i_settings i) m).
Proof.
  intros Fs O L Rm M Sm. unfold Program.program. destruct (fs setting) as [e|]; [|congruence]. rewrite O. unfold after at 1. rewrite L.
  destruct (saver_done out f1 Rm) as (f2 & E2 & R2). unfold after at 1. rewrite E2. unfold after at 1, ret at 1. rewrite M.
  apply runFiles_ends; [|cbn; lia|exact R2]. intros B. cbn [newSim si_mps].
  assert (EP : m_ps m = i_particles i) by (unfold factoryCreate in M; binds M; binds M; unfold newMPS in M; binds M; binds M; binds M; binds M; inv M; reflexivity).
  rewrite EP. auto.
Qed.
End Ends.

(** ** The time loop in doubles *)
Lemma files_bound S real clk (st0 st : @sim F64) k : fresh st0 -> reached S real clk st0 k st -> 1 <= si_file st <= Z.of_nat k + 1.
Proof.
  intros (_ & _ & F & _) R. induction R as [st E|k st st' R IH L E].
  - apply save_inv in E. subst st. cbn [si_file]. rewrite F. lia.
  - apply iteration_inv in E as (m & st1 & _ & -> & E). destruct (saveCondition _); [apply save_inv in E|]; subst st'; cbn [si_file]; lia.
Qed.
Lemma cint_small z : 0 <= z -> z <= int_max -> cint z = Ok z.
Proof. intros A B. unfold cint, in_int. replace (int_min <=? z) with true by (symmetry; apply Z.leb_le; unfold int_min; lia). replace (z <=? int_max) with true by (symmetry; now apply Z.leb_le). reflexivity. Qed.

Lemma run_ways S real clk fuel (st0 : @sim F64) n : fresh st0 -> sound (si_mps st0) -> sized S ->
  radiusF (s_reMax (m_settings (si_mps st0))) -> proper_domainF (s_domain (m_settings (si_mps st0))) ->
  nlt (time_at (si_start st0) (si_dt st0) n) (si_end st0) = false -> Z.of_nat n < int_max -> (n <= fuel)%nat ->
  (forall k st, (0 < k <= n)%nat -> agrees st0 k st -> exists r, timeStepReport real (clk (k - 1)%nat) st = Ok r) ->
  ends S st0 n (run S real clk fuel st0).
Proof.
  intros Fr SD SZ RF PD Hn Hi Hf Rep. destruct (run_ends S real clk st0 n Fr Hn) as (o & Ho & Hc). rewrite Ho by exact Hf.
  destruct Hc as [(st' & ->)|([E|(k & st1 & R & L & E)] & NO)].
  - left. exists st'. split; [reflexivity|]. specialize (Ho fuel Hf). pose proof Ho as E. apply run_times in E as (k & _ & K & _ & M & Hk & B); [|exact Fr].
    assert (kn : (k <= n)%nat). { destruct (Nat.le_gt_cases k n) as [X|X]; [exact X|]. rewrite (B n X) in Hn. discriminate. }
    exists k. auto.
  - exfalso. unfold save in E. rewrite (proj1 (proj2 (proj2 Fr))) in E. cbn in E. exact (NO _ (eq_sym E)).
  - right. destruct (reached_inv _ _ _ _ _ _ Fr R) as ((C1 & C2 & C3 & C4) & T & K & M & _).
    assert (kn : (k < n)%nat).
    { destruct (Nat.lt_ge_cases k n) as [X|X]; [exact X|]. exfalso. destruct (Nat.eq_dec k n) as [->|X']; [rewrite <- C2, <- T in Hn; congruence|].
      destruct (reached_le _ _ _ _ _ _ R n ltac:(lia)) as (st2 & R2 & L2). destruct (reached_inv _ _ _ _ _ _ Fr R2) as ((_ & D2 & _) & T2 & _). rewrite <- D2, <- T2 in Hn. congruence. }
    exists k, (si_mps st1). split; [exact kn|]. split; [exact M|].
    destruct (steps_static _ _ _ _ M) as (ES & _ & EC & _). pose proof (steps_sound _ _ _ _ M SD) as SD1.
    destruct (step_exact S (si_mps st1) SD1 SZ) as [G|[NN G]]; [rewrite ES; exact RF|rewrite ES; exact PD| |].
    2:{ unfold iteration in E. rewrite G in E. cbn [bind] in E. right. right. split; [exact NN|symmetry; exact E]. }
    destruct G as [(m' & G)|[(D & G)|((det & q & Q) & F & G)]].
    + exfalso. unfold iteration in E. rewrite G in E. cbn [bind] in E. rewrite K, cint_small in E by lia. cbn [bind] in E.
      match type of E with context [timeStepReport _ _ ?st] => destruct (Rep (Datatypes.S k) st) as (r & HR) end; [lia| |].
      { unfold agrees. cbn [si_start si_time si_end si_dt si_step]. rewrite T, C1, C2, C3. repeat split. lia. }
      replace (Datatypes.S k - 1)%nat with k in HR by lia. rewrite HR in E. cbn [bind] in E.
      destruct (saveCondition _) in E; [|exact (NO _ (eq_sym E))].
      unfold save in E. cbn [si_file] in E. pose proof (files_bound _ _ _ _ _ _ Fr R) as FB. rewrite cint_small in E by lia. exact (NO _ (eq_sym E)).
    + unfold iteration in E. rewrite G in E. cbn [bind] in E. left. split; [|symmetry; exact E]. unfold dbg_of in D. rewrite ES, EC in D. exact D.
    + unfold iteration in E. rewrite G in E. cbn [bind] in E. right. left. split; [|symmetry; exact E]. exact F.
Qed.
