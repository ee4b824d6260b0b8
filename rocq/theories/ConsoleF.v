(** * What a simulation prints: exact arithmetic, doubles and texts (C62-C64) *)
From Coq Require Import Reals Lra PeanoNat.
From Flocq Require Import Core.
From Verif Require Export ConsoleFacts StepF TotalR SimCases DecimalFacts.
Open Scope Z_scope.

(** ** C62 *)
Section Exact.
#[local] Remove Hints F64 : typeclass_instances.
Lemma rel_R s (ps ps' : list (@Types.particle Rnum)) : collision s ps = Ok ps' -> Forall2 (@rel Rnum eq) ps ps'.
Proof. intros H. apply (collision_evolves absorbs_zero_R) in H. eapply Forall2_impl; [|exact H]. apply evolves_rel. reflexivity. Qed.
Lemma C62_R S real fin clk fuel (st st' : @sim Rnum) log i p p' : sound (si_mps st) -> runLog S real fin clk fuel st = Ok (st', log) ->
  nth_error (m_ps (si_mps st)) i = Some p -> nth_error (m_ps (si_mps st')) i = Some p' ->
  (p_type p <> Ghost -> p_type p' = Ghost -> warnings (Z.of_nat i) log = [OutOfDomain (Z.of_nat i) (p_pos p')] /\ outside (s_domain (m_settings (si_mps st))) (p_pos p')) /\
  (p_type p = Ghost \/ p_type p' <> Ghost -> warnings (Z.of_nat i) log = []).
Proof.
  intros SD H Hp Hp'. assert (G := @run_seg Rnum eq (fun v => eq_refl) (fun u v w => @eq_trans _ u v w) rel_R _ _ _ _ _ _ _ _ SD H).
  destruct G as [_ G]. destruct (G i p p' Hp Hp') as [A B]. split; auto. intros T T'. destruct (A T T') as (x & E & O & ->). auto.
Qed.
End Exact.
Section Binary64.
#[local] Remove Hints Rnum : typeclass_instances.
Lemma rel_F s (ps ps' : list (@Types.particle F64)) : collision s ps = Ok ps' -> Forall2 (@rel F64 kept3) ps ps'.
Proof. intros H. apply collision_keeps in H. eapply Forall2_impl; [|exact H]. intros a b [A B]. split; auto. intros T. apply B, T. Qed.
Lemma C62_F S real fin clk fuel (st st' : @sim F64) log i p p' : sound (si_mps st) -> runLog S real fin clk fuel st = Ok (st', log) ->
  nth_error (m_ps (si_mps st)) i = Some p -> nth_error (m_ps (si_mps st')) i = Some p' ->
  (p_type p <> Ghost -> p_type p' = Ghost -> exists x, warnings (Z.of_nat i) log = [OutOfDomain (Z.of_nat i) x] /\ outside (s_domain (m_settings (si_mps st))) x /\ kept3 x (p_pos p')) /\
  (p_type p = Ghost \/ p_type p' <> Ghost -> warnings (Z.of_nat i) log = []).
Proof.
  intros SD H Hp Hp'. assert (G := @run_seg F64 kept3 kept3_refl kept3_trans rel_F _ _ _ _ _ _ _ _ SD H).
  destruct G as [_ G]. exact (G i p p' Hp Hp').
Qed.
End Binary64.

(** ** numbers in the report *)
Lemma padded n z : (0 < n)%nat -> 0 <= z < 10 ^ Z.of_nat n ->
  exists fs, zeros (n - List.length (digit_text z)) ++ digit_text z = map digit_char fs /\ Forall digit fs /\ List.length fs = n /\ value fs = z.
Proof.
  intros N0 H. assert (L : (List.length (digits z) <= n)%nat) by (apply digits_length; lia). unfold digit_text. rewrite map_length.
  exists (repeat 0 (n - List.length (digits z)) ++ digits z). rewrite zeros_digits, <- map_app. split; auto. split; [|split].
  - apply Forall_app. split; [apply repeat_digit|apply digits_Forall; lia].
  - rewrite app_length, repeat_length. lia.
  - rewrite value_zeros. apply digits_value. lia.
Qed.
Lemma decimals_printF n x : (0 < n)%nat -> is_finite x = true -> decimals n x (printF n x).
Proof.
  intros N0 F. assert (T : 0 < 10 ^ Z.of_nat n) by (apply Z.pow_pos_nonneg; lia). destruct x as [s|s| |s m e B]; try discriminate F; unfold decimals, printF.
  - exists [0], (repeat 0 n). cbn [Bsign B2R]. rewrite zeros_digits. split; [reflexivity|]. split; [constructor; [unfold digit; lia|apply repeat_digit]|]. split; [now left|]. split; [apply repeat_length|].
    rewrite value_zeros_r. change (value [0]) with 0. rewrite Rabs_R0, Z.mul_0_l, Rmult_0_l, Rminus_0_r, Rabs_R0. lra.
  - destruct (ratio m e) as [p q] eqn:ER. pose proof (ratio_value m e) as V. pose proof (ratio_pos m e) as [P Q]. rewrite ER in V, P, Q. cbn [fst snd] in V, P, Q.
    assert (QR : (0 < IZR q)%R) by now apply IZR_lt.
    assert (DE : round_div (p * 10 ^ Z.of_nat n) q = ZnearestE (F2R (Float radix2 (Zpos m) e) * IZR (10 ^ Z.of_nat n))).
    { rewrite round_div_spec by exact Q. f_equal. rewrite mult_IZR, <- V. field. lra. }
    set (D := round_div (p * 10 ^ Z.of_nat n) q) in *. cbv zeta.
    assert (XP : (0 < F2R (Float radix2 (Zpos m) e))%R) by (rewrite <- V; apply Rdiv_lt_0_compat; [now apply IZR_lt|exact QR]).
    assert (D0 : 0 <= D).
    { rewrite DE. rewrite <- (Zrnd_IZR ZnearestE 0). apply Zrnd_le; [apply valid_rnd_N|]. apply Rmult_le_pos; [lra|]. apply IZR_le. lia. }
    destruct (padded n (D mod 10 ^ Z.of_nat n) N0) as (fs & E1 & E2 & E3 & E4); [apply Z.mod_pos_bound; lia|].
    assert (W0 : 0 <= D / 10 ^ Z.of_nat n) by (apply Z.div_pos; lia).
    exists (digits (D / 10 ^ Z.of_nat n)), fs. cbn [Bsign]. unfold digit_text at 1. rewrite E1. split; [reflexivity|].
    split; [apply Forall_app; split; [now apply digits_Forall|exact E2]|]. split.
    { destruct (digits_spec _ W0) as (_ & _ & L). destruct (Z.eq_dec (D / 10 ^ Z.of_nat n) 0) as [E|E]; [left; now rewrite E|right; apply L; lia]. }
    split; [exact E3|]. rewrite value_app, digits_value, E3, E4 by exact W0.
    replace (D / 10 ^ Z.of_nat n * 10 ^ Z.of_nat n + D mod 10 ^ Z.of_nat n) with D by (rewrite Z.mul_comm; apply Z.div_mod; lia).
    replace (Rabs (B2R (B754_finite s m e B))) with (F2R (Float radix2 (Zpos m) e)).
    + rewrite DE, Rabs_minus_sym. apply Znearest_half.
    + rewrite B2R_finite. destruct s; [rewrite Rabs_Ropp|]; symmetry; apply Rabs_pos_eq; lra.
Qed.

(** ** C64: the report as a reason to stop *)
Section Report.
#[local] Remove Hints F64 : typeclass_instances.
Open Scope R_scope.
Lemma Ztrunc_lt (x : R) (z : Z) : 0 <= x -> ((Ztrunc x < z)%Z <-> x < IZR z).
Proof.
  intros H. rewrite Ztrunc_floor by exact H. split; intros L.
  - assert (U := Zfloor_ub x). assert (IZR (Zfloor x) + 1 <= IZR z) by (rewrite <- plus_IZR; apply IZR_le; lia). lra.
  - apply lt_IZR. eapply Rle_lt_trans; [apply Zfloor_lb|exact L].
Qed.
Lemma C64_lemma real a b (st : @sim Rnum) : (0 < si_step st)%Z -> 0 < si_dt st -> si_start st <= si_end st ->
  (0 <= b - real <= int64_max)%Z -> (0 <= b - a <= int64_max)%Z ->
  let estimate := IZR (b - real) / IZR (si_step st) * ((si_end st - si_start st) / si_dt st) in
  (estimate < 2 ^ 63 -> exists x, timeStepReport real (a, b) st = Ok x) /\ (2 ^ 63 <= estimate -> timeStepReport real (a, b) st = Undef BadCast).
Proof.
  intros K D E B1 B2 estimate. unfold timeStepReport. assert (I : forall z, (int64_min <= z <= int64_max)%Z -> in_int64 z = true).
  { intros z Hz. unfold in_int64. destruct (Z.leb_spec int64_min z); [|lia]. destruct (Z.leb_spec z int64_max); [reflexivity|lia]. }
  assert (C : forall z, (int64_min <= z <= int64_max)%Z -> cint64 z = Ok z) by (intros z Hz; unfold cint64; now rewrite I).
  unfold int64_min, int64_max in *. rewrite (C (b - real)%Z) by lia. cbn [bind]. destruct (Z.eqb_spec (si_step st) 0); [lia|].
  assert (KR : 0 < IZR (si_step st)) by now apply IZR_lt.
  assert (EQ : @nmul Rnum (@ndiv Rnum (@nmul Rnum (@ndiv Rnum (@nofZ Rnum (b - real)) (@nmul Rnum (@nofZ Rnum (si_step st)) (@nofZ Rnum 1000000000))) (@nsub Rnum (si_end st) (si_start st))) (si_dt st)) (@nofZ Rnum 1000000000) = estimate).
  { unfold estimate. simpl. field. lra. }
  rewrite EQ. clear EQ. assert (E0 : 0 <= estimate).
  { unfold estimate. apply Rmult_le_pos; apply Rmult_le_pos; try (left; now apply Rinv_0_lt_compat); [apply IZR_le; lia|lra]. }
  assert (P : 2 ^ 63 = IZR 9223372036854775808) by (rewrite (pow_IZR 2 63); reflexivity). rewrite P. unfold to_int64. cbn [ntrunc Rnum].
  assert (T0 : (0 <= Ztrunc estimate)%Z) by (rewrite <- (Ztrunc_IZR 0); now apply Ztrunc_le).
  split; intros L.
  - apply (Ztrunc_lt _ _ E0) in L. rewrite I by lia. cbn [bind]. rewrite C by lia. cbn [bind]. rewrite C by lia. cbn [bind]. eauto.
  - assert (~ (Ztrunc estimate < 9223372036854775808)%Z) by (rewrite (Ztrunc_lt _ _ E0); lra).
    unfold in_int64, int64_max. destruct (Z.leb_spec (Ztrunc estimate) 9223372036854775807); [lia|]. rewrite andb_false_r. reflexivity.
Qed.
End Report.

(** ** A concrete run: a particle inside and one outside the domain *)
Section Trip.
#[local] Remove Hints F64 : typeclass_instances.
Open Scope R_scope.
Definition strays : list partR := [ at3 0 Fluid 4 5 1 []; at3 1 Fluid 40 5 1 [] ].
Lemma stray_runs : exists m st' log p, sound m /\ m_ps m = strays /\ runLog no_solver 0 7 tick 3 (trip m) = Ok (st', log) /\ nth_error (m_ps m) 1 = Some p /\ p_type p <> Ghost /\
  outside (s_domain (m_settings m)) (p_pos p).
Proof.
  assert (I : indexed strays) by (intros [|[|[|i]]] p H; simpl in H; inv H; reflexivity).
  assert (A : at_rest strays) by (intros p [<-|[<-|[]]]; reflexivity).
  destruct (machine strays kex I A) as (m & _ & RD & ES & EP & EG & EK).
  destruct (C32_completes_lemma no_solver 0 tick (trip m)) as [st' E]; auto using trip_fresh, trip_clock, no_solver_sized.
  - simpl. lra.
  - simpl. now rewrite ES.
  - simpl. intros det q K. rewrite EK in K. discriminate.
  - rewrite trip_needed. reflexivity.
  - rewrite trip_needed in E. destruct (proj2 (C62_erase no_solver 0 7 tick 3 (trip m) st') (conj E eq_refl)) as [log L]. exists m, st', log. rewrite EP. eexists.
    split; [apply RD|]. split; [reflexivity|]. split; [exact L|]. split; [reflexivity|]. split; [discriminate|]. rewrite ES. right. left. simpl. apply Rlt_bool_true. lra.
Qed.
End Trip.

(** ** Concrete runs in doubles *)
Section Cases.
#[local] Remove Hints Rnum : typeclass_instances.
(** the shipped dam-break settings; two wall particles, a fluid particle in the domain and
    one outside; two steps *)
Definition lost : list partF := [ pf 0 Wall c00 c00; pf 1 Fluid half half; pf 2 Fluid (@nofZ F64 100) half; pf 3 Ghost (@nofZ F64 200) half ].
Definition machineL : outcome (@mps F64) := factoryCreate fid fid c20 settingsD lost.
Definition lost_sim (m : @mps F64) : @sim F64 := @mkSim F64 m (bits 0) (bits 0) (bits 0x3f5a36e2eb1c432d) (bits 0x3f50624dd2f1a9fc) (bits 0x3fa47ae147ae147b) 0 0 [].
(** half a second per step *)
Definition slow (k : nat) : Z * Z := (500000000 * Z.of_nat k, 500000000 * (Z.of_nat k + 1)).
Definition outputs (log : list (@event F64)) : string * string := (fold_right String.append "" (map coutText log), fold_right String.append "" (map cerrText log))%string.
Definition lost_check (out : string * string) : bool :=
  match machineL with
  | Ok m => match runLog solver0 0 1000000000 slow 2 (lost_sim m) with
            | Ok (st', log) => (fst (outputs log) =? fst out)%string && (snd (outputs log) =? snd out)%string &&
                               match nth_error (m_ps (si_mps st')) 2, nth_error (m_ps (si_mps st')) 1 with Some p, Some q => is_type p Ghost && is_type q Fluid | _, _ => false end
            | _ => false end
  | _ => false end.
Definition lost_text : string * string :=
  ("
*** START SIMULATION ***
1: dt=0.001s   t=0.001s   fin=0.0s   elapsed=0h 00m 0s   remain=0h 00m 0s   ave=0.500s/step   last=0.500s/step   out=1files   Courant=0.00
2: dt=0.001s   t=0.002s   fin=0.0s   elapsed=0h 00m 1s   remain=0h 00m 0s   ave=0.500s/step   last=0.500s/step   out=1files   Courant=0.00

Total Simulation time = 0h 00m 1s

*** END SIMULATION ***
",
"WARNING: particle 2 is out of domain.
x = 100 y = 0.5 z = 0
   1: t=0.001s
   2: t=0.002s
")%string.
Lemma lost_indexed : indexed lost.
Proof. intros [|[|[|[|[|i]]]]] p H; simpl in H; inv H; reflexivity. Qed.
Lemma lost_rest : at_rest lost.
Proof. intros p H. simpl in H. intuition (subst; reflexivity). Qed.
Lemma lost_case : exists m st' log p q, machineL = Ok m /\ sound m /\ m_ps m = lost /\ fresh (lost_sim m) /\ runLog solver0 0 1000000000 slow 2 (lost_sim m) = Ok (st', log) /\
  outputs log = lost_text /\ nth_error (m_ps (si_mps st')) 2 = Some p /\ p_type p = Ghost /\ nth_error (m_ps (si_mps st')) 1 = Some q /\ p_type q = Fluid.
Proof.
  assert (B : lost_check lost_text = true) by (vm_compute; reflexivity). unfold lost_check in B.
  destruct machineL as [m| | | | |] eqn:E; try discriminate B. destruct (runLog _ _ _ _ _ _) as [[st' log]| | | | |] eqn:R; try discriminate B.
  destruct (nth_error (m_ps (si_mps st')) 2) as [p|] eqn:Hp; [|rewrite andb_false_r in B; discriminate B].
  destruct (nth_error (m_ps (si_mps st')) 1) as [q|] eqn:Hq; [|rewrite andb_false_r in B; discriminate B].
  apply andb_true_iff in B as [B T]. apply andb_true_iff in B as [B1 B2]. apply andb_true_iff in T as [T1 T2]. apply String.eqb_eq in B1, B2. apply is_type_eq in T1, T2.
  destruct (factory_sound _ _ _ _ _ _ E lost_indexed lost_rest) as (SD & EP & ES).
  exists m, st', log, p, q. split; [reflexivity|]. split; [exact SD|]. split; [exact EP|]. split; [repeat split|]. split; [exact R|]. split; [|auto].
  destruct (outputs log) as [a b]. cbn [fst snd] in B1, B2. rewrite B1, B2. now destruct lost_text.
Qed.

(** end time 10^6 s, time step 0.001 s, a first step that takes ten seconds *)
Definition endless (m : @mps F64) : @sim F64 := @mkSim F64 m (bits 0) (bits 0) (@nofZ F64 1000000) (bits 0x3f50624dd2f1a9fc) (bits 0x3fa47ae147ae147b) 0 0 [].
Definition sluggish (k : nat) : Z * Z := (10000000000 * Z.of_nat k, 10000000000 * (Z.of_nat k + 1)).
Definition is_cast {A} (o : outcome A) : bool := match o with Undef BadCast => true | _ => false end.
Lemma endless_stops : exists m m1, machineD = Ok m /\ sound m /\ fresh (endless m) /\ stepForward solver0 m = Ok m1 /\
  forall fuel, (0 < fuel)%nat -> run solver0 0 sluggish fuel (endless m) = Undef BadCast.
Proof.
  destruct machineD_ready as (m & E & SD & _). exists m.
  assert (B : match machineD with Ok m => match stepForward solver0 m with Ok _ => match save (endless m) with Ok st => @nlt F64 (si_time st) (si_end st) && is_cast (iteration solver0 0 (sluggish 0) st) | _ => false end | _ => false end | _ => false end = true) by (vm_compute; reflexivity).
  rewrite E in B. destruct (stepForward solver0 m) as [m1| | | | |] eqn:F; try discriminate B. exists m1. split; [exact E|]. split; [exact SD|]. split; [repeat split|]. split; [reflexivity|].
  intros [|fuel] H; [lia|]. unfold run. destruct (save (endless m)) as [st| | | | |]; try discriminate B. cbn [bind loop]. apply andb_true_iff in B as [B1 B2]. rewrite B1.
  destruct (iteration solver0 0 (sluggish 0) st) as [s|[]| | | |]; try discriminate B2. reflexivity.
Qed.

(** two time steps that print alike: 0.0015 and 0.0024 *)
Lemma dt_case : exists x y : f64, is_finite x = true /\ is_finite y = true /\ (3 * B2R x <= 2 * B2R y)%R /\ (0 < B2R x)%R /\ printG1 x = "0.002"%string /\ printG1 y = "0.002"%string.
Proof.
  exists (bits 0x3f589374bc6a7efa), (bits 0x3f63a92a30553261). split; [reflexivity|]. split; [reflexivity|].
  rewrite <- !SF2R_B2SF.
  set (a := B2SF (bits 0x3f589374bc6a7efa)). set (b := B2SF (bits 0x3f63a92a30553261)). vm_compute in a, b. subst a b.
  unfold SF2R, F2R. cbn [cond_Zopp Fnum Fexp bpow]. change (Z.pow_pos radix2 62) with 4611686018427387904. change (Z.pow_pos radix2 61) with 2305843009213693952.
  repeat split; try lra; vm_compute; reflexivity.
Qed.
End Cases.
