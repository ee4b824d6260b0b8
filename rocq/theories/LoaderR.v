(** * The derived radii: exact reals and doubles *)
From Coq Require Import Reals Lra.
From Flocq Require Import Core.Raux.
From Verif Require Import FloatFacts NeighborR SpecR.
From Verif Require Export ProgramFacts.
From Verif Require WholeR.
Open Scope R_scope.

Lemma max3_R (a b c : R) : let m := @max3 Rnum a b c in (m = a \/ m = b \/ m = c) /\ a <= m /\ b <= m /\ c <= m.
Proof.
  unfold max3, nmax. simpl.
  destruct (Rlt_bool_spec a b) as [L|L].
  - destruct (Rlt_bool_spec b c) as [K|K]; repeat split; try lra; auto.
  - destruct (Rlt_bool_spec a c) as [K|K]; repeat split; try lra; auto.
Qed.

(** order of doubles that are not NaN: infinities by rank *)
Definition rank (x : f64) : Z := match x with B754_infinity true => -1 | B754_infinity false => 1 | _ => 0 end%Z.
Definition below (x y : f64) : Prop := (rank x < rank y)%Z \/ (rank x = 0%Z /\ rank y = 0%Z /\ F2r x < F2r y).
Lemma nlt_below (x y : f64) : is_nan x = false -> is_nan y = false -> @nlt F64 x y = true <-> below x y.
Proof.
  intros Nx Ny. unfold below.
  destruct (fin x) eqn:Fx.
  - destruct (fin y) eqn:Fy.
    + rewrite Flt_fin by assumption. assert (Rx : rank x = 0%Z) by (destruct x as [?|[]| |? ? ? ?]; try discriminate; reflexivity).
      assert (Ry : rank y = 0%Z) by (destruct y as [?|[]| |? ? ? ?]; try discriminate; reflexivity). rewrite Rx, Ry. split; [auto|]. intros [F|(_ & _ & F)]; [lia|exact F].
    + destruct y as [?|[]| |? ? ? ?]; try discriminate; destruct x as [[]|[]| |[] ? ? ?]; try discriminate; simpl; split; intros; try discriminate; try reflexivity; try (left; lia); destruct H as [F|(_ & F & _)]; lia.
  - destruct x as [?|[]| |? ? ? ?]; try discriminate; destruct y as [[]|[]| |[] ? ? ?]; try discriminate; simpl; split; intros; try discriminate; try reflexivity; try (left; lia); destruct H as [F|(F & _ & _)]; lia.
Qed.
Lemma nle_nlt (x y : f64) : is_nan x = false -> is_nan y = false -> @nle F64 x y = negb (@nlt F64 y x).
Proof.
  intros Nx Ny. simpl. unfold Fcmp. rewrite (Bcompare_swap _ _ x y).
  assert (H : Bcompare x y <> None) by (destruct x as [[]|[]| |[] ? ? ?], y as [[]|[]| |[] ? ? ?]; try discriminate).
  revert H. destruct (Bcompare x y) as [[]|]; intros H; try reflexivity. congruence.
Qed.
Lemma nlt_nan (x y : f64) : is_nan x = true \/ is_nan y = true -> @nlt F64 x y = false.
Proof. intros [H|H]; destruct x as [[]|[]| |[] ? ? ?], y as [[]|[]| |[] ? ? ?]; try discriminate; reflexivity. Qed.
Lemma below_trans x y z : below x y -> below y z -> below x z.
Proof. unfold below. intros [H|(A & B & H)] [K|(C & D & K)]; [left; lia|left; lia|left; lia|right; repeat split; auto; lra]. Qed.
Lemma below_irr x : ~ below x x.
Proof. unfold below. intros [H|(_ & _ & H)]; [lia|lra]. Qed.
Lemma below_total x y z : ~ below x y -> below x z -> below y z.
Proof.
  unfold below. intros N H. destruct (Z.lt_trichotomy (rank x) (rank y)) as [L|[L|L]]; [tauto| |left; lia].
  destruct H as [H|(A & B & H)]; [left; lia|]. right. repeat split; auto; [lia|].
  destruct (Rlt_or_le (F2r x) (F2r y)) as [K|K]; [exfalso; apply N; right; repeat split; auto; lia|lra].
Qed.

Lemma nmax_F (a b : f64) : let m := @nmax F64 a b in (m = a \/ m = b) /\ @nlt F64 m a = false /\ @nlt F64 m b = false.
Proof.
  unfold nmax. destruct (@nlt F64 a b) eqn:L; cbv zeta.
  - split; [auto|]. destruct (is_nan a) eqn:Na; [rewrite nlt_nan in L by auto; discriminate|].
    destruct (is_nan b) eqn:Nb; [rewrite nlt_nan in L by auto; discriminate|]. apply nlt_below in L; auto. split.
    + destruct (@nlt F64 b a) eqn:K; [|reflexivity]. apply nlt_below in K; auto. exfalso. exact (below_irr _ (below_trans _ _ _ L K)).
    + destruct (@nlt F64 b b) eqn:K; [|reflexivity]. apply nlt_below in K; auto. exfalso. exact (below_irr _ K).
  - split; [auto|]. split; [|exact L]. destruct (is_nan a) eqn:Na; [apply nlt_nan; auto|].
    destruct (@nlt F64 a a) eqn:K; [|reflexivity]. apply nlt_below in K; auto. exfalso. exact (below_irr _ K).
Qed.
(** a step up keeps everything not above *)
Lemma nlt_up (a m c : f64) : @nlt F64 m a = false -> @nlt F64 m c = true -> is_nan a = false -> @nlt F64 c a = false.
Proof.
  intros H L Na. destruct (is_nan m) eqn:Nm; [rewrite nlt_nan in L by auto; discriminate|].
  destruct (is_nan c) eqn:Nc; [rewrite nlt_nan in L by auto; discriminate|].
  destruct (@nlt F64 c a) eqn:K; [|reflexivity]. apply nlt_below in L, K; auto. exfalso.
  assert (B : below m a) by exact (below_trans _ _ _ L K). apply nlt_below in B; auto. congruence.
Qed.
Lemma max3_F (a b c : f64) : @largest F64 a b c (@max3 F64 a b c).
Proof.
  unfold largest, max3. destruct (nmax_F a b) as (I & A & B). set (m := @nmax F64 a b) in *.
  assert (U : forall x, @nlt F64 m x = false -> @nlt F64 (@nmax F64 m c) x = false).
  { intros x H. unfold nmax. destruct (@nlt F64 m c) eqn:L; [|exact H]. destruct (is_nan x) eqn:Nx; [apply nlt_nan; auto|]. exact (nlt_up x m c H L Nx). }
  split; [|split; [exact (U a A)|split; [exact (U b B)|]]].
  - unfold nmax. destruct (@nlt F64 m c); [auto|]. destruct I; auto.
  - exact (proj2 (proj2 (nmax_F m c))).
Qed.

Section Settings.
Variable as_int : list ascii -> option Z.
Variable as_bool : list ascii -> option bool.

Lemma radii_R (as_dbl : list ascii -> option R) dbg dir y (s : @settings Rnum) pp cores :
  @loadSettingYaml Rnum as_int as_dbl as_bool dbg dir y = Ok (s, pp, cores) ->
  (s_reMax s = s_reN s \/ s_reMax s = s_reG s \/ s_reMax s = s_reL s) /\
  s_reN s <= s_reMax s /\ s_reG s <= s_reMax s /\ s_reL s <= s_reMax s.
Proof. intros H. apply settings_loaded in H as (_ & _ & M). rewrite M. apply max3_R. Qed.

Lemma usable_R (as_dbl : list ascii -> option R) dbg dir y (s : @settings Rnum) pp cores rN rG rL :
  @loadSettingYaml Rnum as_int as_dbl as_bool dbg dir y = Ok (s, pp, cores) ->
  (s_dim s = 2 \/ s_dim s = 3)%Z -> 0 < s_l0 s ->
  says as_dbl y "radiusRatioForNumberDensity" rN -> says as_dbl y "radiusRatioForGradient" rG -> says as_dbl y "radiusRatioForLaplacian" rL ->
  1 < rN -> 1 < rG -> 1 < rL ->
  xMin (s_domain s) <= xMax (s_domain s) -> yMin (s_domain s) <= yMax (s_domain s) -> zMin (s_domain s) <= zMax (s_domain s) ->
  usable s.
Proof.
  intros H D L SN SG SL RN RG RL X Y Z. destruct (radii_R _ _ _ _ _ _ _ H) as (_ & BN & BG & BL).
  apply settings_loaded in H as (_ & H & _). unfold settings_in in H.
  do 24 destruct H as (_ & H). destruct H as ((r1 & S1 & E1) & (r2 & S2 & E2) & (r3 & S3 & E3) & (_ & _ & _ & _ & _ & _ & LX & LY & LZ) & _).
  assert (U : forall k a b, says as_dbl y k a -> says as_dbl y k b -> a = b).
  { intros k a b Ha Hb. apply (req_ok as_dbl) in Ha, Hb. congruence. }
  rewrite (U _ _ _ S1 SN) in E1. rewrite (U _ _ _ S2 SG) in E2. rewrite (U _ _ _ S3 SL) in E3. simpl in E1, E2, E3, LX, LY, LZ.
  assert (M : forall r, 1 < r -> s_l0 s < r * s_l0 s) by (intros r Hr; rewrite <- (Rmult_1_l (s_l0 s)) at 1; apply Rmult_lt_compat_r; assumption).
  unfold usable, proper_domain. repeat split; auto; rewrite ?E1, ?E2, ?E3; auto.
Qed.

Lemma radii_F (as_dbl : list ascii -> option f64) dbg dir y (s : @settings F64) pp cores :
  @loadSettingYaml F64 as_int as_dbl as_bool dbg dir y = Ok (s, pp, cores) ->
  @largest F64 (s_reN s) (s_reG s) (s_reL s) (s_reMax s) /\
  (is_nan (s_reN s : f64) = false -> is_nan (s_reG s : f64) = false -> is_nan (s_reL s : f64) = false ->
   @nle F64 (s_reN s) (s_reMax s) = true /\ @nle F64 (s_reG s) (s_reMax s) = true /\ @nle F64 (s_reL s) (s_reMax s) = true).
Proof.
  intros H. apply (@settings_loaded F64) in H as (_ & _ & M). rewrite M.
  pose proof (max3_F (s_reN s) (s_reG s) (s_reL s)) as L. split; [exact L|]. destruct L as (I & A & B & C).
  intros N1 N2 N3.
  assert (NM : is_nan (@max3 F64 (s_reN s) (s_reG s) (s_reL s) : f64) = false) by (destruct I as [E|[E|E]]; (eapply eq_trans; [exact (f_equal is_nan E)|assumption])).
  rewrite !nle_nlt by assumption. rewrite A, B, C. auto.
Qed.
End Settings.

Section Program.
Variable parse : list ascii -> option node.
Variable as_int : list ascii -> option Z.
Variable as_dbl : list ascii -> option f64.
Variable as_bool : list ascii -> option bool.
Variable cell_int : list ascii -> option Z.
Variable cell_dbl : list ascii -> option f64.
Variable fsin fcos : f64 -> f64.
Variable M_PI : f64.
Variable big : bool.
Variable dbg : bool.
Notation load := (load parse as_int as_dbl as_bool cell_int cell_dbl).
Notation program := (program parse as_int as_dbl as_bool cell_int cell_dbl fsin fcos M_PI big dbg).
(** an unknown pressure method: nothing is simulated *)
Lemma program_method S real clk fuel setting out fs f1 i : fs setting <> None -> fs out = Some Folder ->
  load dbg setting out fs = (f1, Ok i) -> dbg = false ->
  s_method (i_settings i) <> "Implicit"%string -> s_method (i_settings i) <> "Explicit"%string -> room out f1 ->
  exists fs', program S real clk fuel setting out fs = (fs', Exit (-1)) /\ forall kind k, fs' (outputPath out kind k) = fs (outputPath out kind k).
Proof.
  intros Es Eo L D M1 M2 R. destruct (saver_done out f1 R) as (f2 & E2 & _).
  exists f2. split.
  - unfold Program.program, after, ret. destruct (fs setting) as [es|]; [|congruence]. rewrite Eo, L, E2.
    rewrite (@WholeR.C54_exit_lemma F64); auto. apply load_ok in L as (sb & y & pp & cores & pb & _ & _ & L & _). apply (@settings_loaded F64) in L as (A & _). congruence.
  - intros kind k.
    assert (N : forall n f g o, create_dir (out ++ [n]) f = (g, o) -> g (outputPath out kind k) = f (outputPath out kind k)).
    { intros n f g o C. apply create_inv in C as [(_ & ->)|(_ & [(_ & ->)|(_ & _ & ->)])]; auto. apply put_other, outputPath_deep. }
    unfold newSaver in E2. apply after_ok in E2 as (g1 & [] & C1 & E2). apply after_ok in E2 as (g2 & [] & C2 & C3).
    rewrite (N _ _ _ _ C3), (N _ _ _ _ C2), (N _ _ _ _ C1).
    apply load_copies in L as [->|[(T & b & ->)|(pp & b & b' & T & T2 & ->)]]; rewrite ?put_other; auto using outputPath_deep.
Qed.
End Program.
