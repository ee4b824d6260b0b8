(** * The simulation loop in binary64 *)
From Coq Require Import Reals Lra.
From Flocq Require Import Core.
From Verif Require Export FloatFacts SimFacts.
Open Scope R_scope.

(** ** The loop ends, or the time stands still *)
Lemma Fplus (x y : f64) : fin x = true -> fin y = true -> Rabs (rndF (F2r x + F2r y)) < bpow radix2 1024 ->
  F2r (Bplus mode_NE x y) = rndF (F2r x + F2r y) /\ fin (Bplus mode_NE x y) = true.
Proof.
  intros Hx Hy H. pose proof (Bplus_correct 53 1024 _ _ mode_NE x y Hx Hy) as C. rewrite (Rlt_bool_true _ _ H) in C. tauto.
Qed.
(** doubles are integer multiples of 2^-1074 *)
Lemma F2r_multiple (x : f64) : exists z : Z, F2r x = IZR z * bpow radix2 (-1074).
Proof.
  destruct x as [s|s| |s m e Hb]; try (exists 0%Z; cbn [B2R]; lra). cbn [B2R]. unfold F2R. cbn [Fnum Fexp].
  assert (He : (-1074 <= e)%Z). { unfold SpecFloat.bounded, SpecFloat.canonical_mantissa in Hb. apply andb_prop in Hb as [Hb _]. apply Zeq_bool_eq in Hb. unfold SpecFloat.fexp, SpecFloat.emin in Hb. lia. }
  exists (cond_Zopp s (Z.pos m) * 2 ^ (e + 1074))%Z. rewrite mult_IZR. change 2%Z with (radix_val radix2). rewrite IZR_Zpower by lia.
  rewrite Rmult_assoc, <- bpow_plus. f_equal. f_equal. lia.
Qed.
Lemma time_at_shift (t dt : f64) k : @time_at F64 t dt (Datatypes.S k) = @time_at F64 (Bplus mode_NE t dt) dt k.
Proof. induction k as [|k IH]; [reflexivity|]. change (@time_at F64 t dt (Datatypes.S (Datatypes.S k))) with (Bplus mode_NE (@time_at F64 t dt (Datatypes.S k)) dt). rewrite IH. reflexivity. Qed.

Lemma fin_strict (x : f64) : fin x = true -> F2r x <> 0 -> is_finite_strict x = true.
Proof. destruct x; simpl; intros; auto; try discriminate. Qed.
Lemma sign_pos (x : f64) : fin x = true -> 0 < F2r x -> Bsign x = false.
Proof.
  destruct x as [s|s| |s m e Hb]; simpl; intros F P; try discriminate; try lra. destruct s; auto. exfalso.
  pose proof (F2R_lt_0 radix2 (Float radix2 (Z.neg m) e)) as X. simpl in *. specialize (X ltac:(lia)). lra.
Qed.
Lemma ends_or_stands (dt e : f64) : fin dt = true -> fin e = true -> 0 < F2r dt -> forall (b : nat) (t : f64), fin t = true ->
  F2r e - F2r t <= IZR (Z.of_nat b) * bpow radix2 (-1074) ->
  (exists n, @nlt F64 (@time_at F64 t dt n) e = false) \/
  (exists n, Bplus mode_NE (@time_at F64 t dt n) dt = @time_at F64 t dt n /\ forall j, (j <= n)%nat -> @nlt F64 (@time_at F64 t dt j) e = true).
Proof.
  intros Fd Fe Pd. assert (U : 0 < bpow radix2 (-1074)) by apply bpow_gt_0. induction b as [|b IH]; intros t Ft G.
  - left. exists O. simpl. apply Flt_fin_false; auto. simpl in G. lra.
  - destruct (@nlt F64 t e) eqn:L; [|left; now exists O].
    destruct (fin (Bplus mode_NE t dt)) eqn:F1.
    + assert (V : F2r (Bplus mode_NE t dt) = rndF (F2r t + F2r dt)).
      { pose proof (Bplus_correct 53 1024 _ _ mode_NE t dt Ft Fd) as C. destruct (Rlt_bool_spec (Rabs (rndF (F2r t + F2r dt))) (bpow radix2 1024)); [tauto|]. destruct C as [C _]. apply overflow_not_finite in C. congruence. }
      assert (Ge : F2r t <= F2r (Bplus mode_NE t dt)). { rewrite V, <- (rndF_B2R t) at 1. apply rndF_le. lra. }
      destruct (Req_dec (F2r (Bplus mode_NE t dt)) (F2r t)) as [E|Ne].
      * right. exists O. split; [|intros j Hj; assert (j = O) by lia; now subst]. simpl. assert (Nz : F2r t <> 0). { intros Z. rewrite Z, V, Z, Rplus_0_l, rndF_B2R in E. lra. } apply B2R_inj; auto; apply fin_strict; auto. now rewrite E.
      * assert (Gap : F2r t + bpow radix2 (-1074) <= F2r (Bplus mode_NE t dt)).
        { destruct (F2r_multiple t) as [z Hz]. destruct (F2r_multiple (Bplus mode_NE t dt)) as [z' Hz']. rewrite Hz, Hz' in *.
          assert (z < z')%Z. { apply lt_IZR. nra. } assert (IZR (z + 1) <= IZR z') by (apply IZR_le; lia). rewrite plus_IZR in *. nra. }
        destruct (IH (Bplus mode_NE t dt) F1) as [[n Hn]|[n [Hn Hl]]].
        -- rewrite Nat2Z.inj_succ, succ_IZR in G. lra.
        -- left. exists (Datatypes.S n). now rewrite time_at_shift.
        -- right. exists (Datatypes.S n). rewrite time_at_shift. split; auto. intros [|j] Hj; [exact L|]. rewrite time_at_shift. apply Hl. lia.
    + left. exists 1%nat. change (@time_at F64 t dt 1) with (Bplus mode_NE t dt). simpl.
      pose proof (Bplus_correct 53 1024 _ _ mode_NE t dt Ft Fd) as C. destruct (Rlt_bool_spec (Rabs (rndF (F2r t + F2r dt))) (bpow radix2 1024)); [destruct C as (_ & C & _); congruence|].
      destruct C as [C Sg].
      assert (Pos : Bsign t = false).
      { rewrite <- (sign_pos dt Fd Pd). exact Sg. }
      rewrite Pos in C. destruct (Bplus mode_NE t dt) as [s|s| |s m ex Hb]; simpl in C; try discriminate. inv C. clear - Fe. now destruct e as [? |? | | [] ? ? ?].
Qed.

(** F64: whatever the start time, end time and step, the loop has a last iteration or
    the time stops growing below the end time *)
Lemma C32_binary64_lemma S real clk (st : @sim F64) : fresh st -> fin (si_start st) = true -> fin (si_dt st) = true -> fin (si_end st) = true -> 0 < F2r (si_dt st) ->
  (exists n o, (forall fuel, (n <= fuel)%nat -> run S real clk fuel st = o) /\ ((exists st', o = Ok st') \/ breaks S real clk st o)) \/
  ((exists n, Bplus mode_NE (@time_at F64 (si_start st) (si_dt st) n) (si_dt st) = @time_at F64 (si_start st) (si_dt st) n /\
     @nlt F64 (@time_at F64 (si_start st) (si_dt st) n) (si_end st) = true) /\ forall fuel st', run S real clk fuel st <> Ok st').
Proof.
  intros Fr Fs Fd Fe Pd. assert (exists b : nat, F2r (si_end st) - F2r (si_start st) <= IZR (Z.of_nat b) * bpow radix2 (-1074)) as [b Hb].
  { destruct (F2r_multiple (si_end st)) as [z Hz]. destruct (F2r_multiple (si_start st)) as [z' Hz']. exists (Z.to_nat (z - z')). rewrite Hz, Hz'.
    assert (IZR (z - z') <= IZR (Z.of_nat (Z.to_nat (z - z')))) by (apply IZR_le; lia). rewrite minus_IZR in H. assert (0 < bpow radix2 (-1074)) by apply bpow_gt_0. nra. }
  destruct (ends_or_stands _ _ Fd Fe Pd b _ Fs Hb) as [[n Hn]|[n [Hn Hl]]].
  - left. exists n. now apply run_ends.
  - right. split; [exists n; auto|]. intros fuel st'. now apply (run_stuck S real clk st n).
Qed.

(** ** Counting by computation *)
Fixpoint first_over (fuel : nat) (t dt e : f64) (k : Z) : option Z :=
  if @nlt F64 t e then match fuel with O => None | Datatypes.S fuel' => first_over fuel' (Bplus mode_NE t dt) dt e (k + 1) end else Some k.
Lemma first_over_spec fuel : forall t dt e k n, first_over fuel t dt e k = Some n -> exists j, n = (k + Z.of_nat j)%Z /\
  @nlt F64 (@time_at F64 t dt j) e = false /\ forall i, (i < j)%nat -> @nlt F64 (@time_at F64 t dt i) e = true.
Proof.
  induction fuel as [|fuel IH]; intros t dt e k n H; simpl in H; change (match Fcmp t e with Some Lt => true | _ => false end) with (@nlt F64 t e) in H; destruct (@nlt F64 t e) eqn:L; try discriminate.
  - inv H. exists O. split; [lia|]. split; auto. intros; lia.
  - apply IH in H as (j & -> & Hj & Hi). exists (Datatypes.S j). split; [lia|]. rewrite time_at_shift. split; auto. intros [|i] Hlt; [exact L|]. rewrite time_at_shift. apply Hi. lia.
  - inv H. exists O. split; [lia|]. split; auto. intros; lia.
Qed.
Lemma run_count S real clk fuel (st st' : @sim F64) f n : fresh st -> first_over f (si_start st) (si_dt st) (si_end st) 0 = Some n -> run S real clk fuel st = Ok st' ->
  si_step st' = n.
Proof.
  intros Fr H E. apply first_over_spec in H as (j & -> & Hj & Hi). apply run_times in E as (k & _ & K & _ & _ & L & B); auto. rewrite K. f_equal. simpl.
  destruct (Nat.lt_trichotomy j k) as [X|[X|X]]; auto.
  - rewrite (B j X) in Hj. discriminate.
  - rewrite (Hi k X) in L. discriminate.
Qed.
(** [plan] in one pass *)
Fixpoint plan_from (n : nat) (t start dt P : f64) (k f : Z) (l : list Z) : Z * list Z :=
  match n with
  | O => (f, l)
  | Datatypes.S n' =>
      let t := Bplus mode_NE t dt in let k := (k + 1)%Z in
      if @nle F64 (Bmult mode_NE P (@nofZ F64 f)) (Bminus mode_NE t start) then plan_from n' t start dt P k (f + 1)%Z (k :: l) else plan_from n' t start dt P k f l
  end.
Lemma plan_from_spec (st : @sim F64) n : forall k f l, plan st k = (f, l) ->
  plan_from n (@time_at F64 (si_start st) (si_dt st) k) (si_start st) (si_dt st) (si_period st) (Z.of_nat k) f l = plan st (k + n).
Proof.
  induction n as [|n IH]; intros k f l H; [now rewrite Nat.add_0_r|]. cbn [plan_from]. cbv zeta.
  change (Bplus mode_NE (@time_at F64 (si_start st) (si_dt st) k) (si_dt st)) with (@time_at F64 (si_start st) (si_dt st) (Datatypes.S k)).
  replace (Z.of_nat k + 1)%Z with (Z.of_nat (Datatypes.S k)) by lia. rewrite Nat.add_succ_r, <- Nat.add_succ_l.
  assert (X : plan st (Datatypes.S k) = if @nle F64 (Bmult mode_NE (si_period st) (@nofZ F64 f)) (Bminus mode_NE (@time_at F64 (si_start st) (si_dt st) (Datatypes.S k)) (si_start st)) then ((f + 1)%Z, Z.of_nat (Datatypes.S k) :: l) else (f, l)).
  { change (plan st (Datatypes.S k)) with (let '(f, l) := plan st k in
      if @nle F64 (nmul (si_period st) (nofZ f)) (nsub (time_at (si_start st) (si_dt st) (Datatypes.S k)) (si_start st)) then (f + 1, Z.of_nat (Datatypes.S k) :: l)%Z else (f, l)). rewrite H. reflexivity. }
  destruct (@nle F64 _ _); apply IH; exact X.
Qed.
Lemma run_plan S real clk fuel (st st' : @sim F64) f n : fresh st -> first_over f (si_start st) (si_dt st) (si_end st) 0 = Some n -> run S real clk fuel st = Ok st' ->
  map o_step (si_out st') = rev (snd (plan_from (Z.to_nat n) (si_start st) (si_start st) (si_dt st) (si_period st) 0 1 [0%Z])).
Proof.
  intros Fr H E. pose proof (run_count _ _ _ _ _ _ _ _ Fr H E) as C. apply run_reached in E as (k & R & _). destruct (reached_inv _ _ _ _ _ _ Fr R) as (_ & _ & K & _).
  destruct (reached_plan _ _ _ _ _ _ Fr R) as (_ & Q). rewrite Q. rewrite C in K. rewrite K, Nat2Z.id.
  pose proof (plan_from_spec st k 0 1 [0%Z] eq_refl) as X. cbn [time_at Z.of_nat Nat.add] in X. now rewrite X.
Qed.

(** ** The shipped settings: input/dambreak/settings.yml and input/hydrostatic/settings.yml
    (dt, endTime, outputPeriod), from time 0 *)
Definition dambreak_like (st : @sim F64) : Prop :=
  si_start st = bits 0 /\ si_dt st = bits 0x3f50624dd2f1a9fc /\ si_end st = bits 0x4000000000000000 /\ si_period st = bits 0x3fa47ae147ae147b.
Definition hydrostatic_like (st : @sim F64) : Prop :=
  si_start st = bits 0 /\ si_dt st = bits 0x3f60624dd2f1a9fc /\ si_end st = bits 0x4024000000000000 /\ si_period st = bits 0x3fb999999999999a.
Definition multiples (d : Z) (a b : nat) (c : Z) : list Z := map (fun j => d * Z.of_nat j + c)%Z (seq a b).
Lemma dambreak_over : first_over (Z.to_nat 2001) (bits 0) (bits 0x3f50624dd2f1a9fc) (bits 0x4000000000000000) 0 = Some 2001%Z.
Proof. vm_compute. reflexivity. Qed.
Lemma hydrostatic_over : first_over (Z.to_nat 5001) (bits 0) (bits 0x3f60624dd2f1a9fc) (bits 0x4024000000000000) 0 = Some 5000%Z.
Proof. vm_compute. reflexivity. Qed.
Lemma dambreak_plan : rev (snd (plan_from (Z.to_nat 2001) (bits 0) (bits 0) (bits 0x3f50624dd2f1a9fc) (bits 0x3fa47ae147ae147b) 0 1 [0%Z])) =
  multiples 40 0 26 0 ++ multiples 40 26 25 1.
Proof. vm_compute. reflexivity. Qed.
Lemma hydrostatic_plan : rev (snd (plan_from (Z.to_nat 5000) (bits 0) (bits 0) (bits 0x3f60624dd2f1a9fc) (bits 0x3fb999999999999a) 0 1 [0%Z])) =
  multiples 50 0 21 0 ++ multiples 50 21 79 1 ++ [5000%Z].
Proof. vm_compute. reflexivity. Qed.
Lemma dambreak_lemma S real clk fuel (st st' : @sim F64) : fresh st -> dambreak_like st -> run S real clk fuel st = Ok st' ->
  si_step st' = 2001%Z /\ map o_step (si_out st') = multiples 40 0 26 0 ++ multiples 40 26 25 1.
Proof.
  intros Fr (H1 & H2 & H3 & H4) E. pose proof dambreak_over as D. rewrite <- H1, <- H2, <- H3 in D. split; [exact (run_count _ _ _ _ _ _ _ _ Fr D E)|].
  rewrite (run_plan _ _ _ _ _ _ _ _ Fr D E), H1, H2, H4. exact dambreak_plan.
Qed.
Lemma hydrostatic_lemma S real clk fuel (st st' : @sim F64) : fresh st -> hydrostatic_like st -> run S real clk fuel st = Ok st' ->
  si_step st' = 5000%Z /\ map o_step (si_out st') = multiples 50 0 21 0 ++ multiples 50 21 79 1 ++ [5000%Z].
Proof.
  intros Fr (H1 & H2 & H3 & H4) E. pose proof hydrostatic_over as D. rewrite <- H1, <- H2, <- H3 in D. split; [exact (run_count _ _ _ _ _ _ _ _ Fr D E)|].
  rewrite (run_plan _ _ _ _ _ _ _ _ Fr D E), H1, H2, H4. exact hydrostatic_plan.
Qed.
