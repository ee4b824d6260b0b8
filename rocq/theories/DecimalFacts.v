(** * Facts about the decimal text of doubles *)
From Coq Require Import Reals Lra PeanoNat.
From Flocq Require Import Core.Zaux Core.Raux Core.Defs Core.Generic_fmt Core.Float_prop Core.Round_NE Core.Ulp Core.FLX Core.FLT Calc.Bracket Calc.Div Calc.Round.
From Flocq Require Import Relative.
From Verif Require Export SpecFiles TextFacts.
Open Scope Z_scope.

Lemma ten_pos X : (0 < ten X)%R. Proof. apply bpow_gt_0. Qed.
Lemma ten_pow X : 0 <= X -> ten X = IZR (10 ^ X).
Proof. intros H. symmetry. now apply (IZR_Zpower radix10). Qed.

(** ** rounding a fraction *)
Lemma round_div_spec a b : 0 < b -> round_div a b = ZnearestE (IZR a / IZR b).
Proof.
  intros B. assert (BR : (0 < IZR b)%R) by now apply IZR_lt.
  assert (F : Zfloor (IZR a / IZR b) = a / b) by (apply Zfloor_div; lia).
  pose proof (Z.div_mod a b ltac:(lia)) as DM. pose proof (Z.mod_pos_bound a b B) as M.
  assert (E : (IZR a / IZR b - IZR (a / b) = IZR (a mod b) / IZR b)%R).
  { rewrite DM at 1. rewrite plus_IZR, mult_IZR. field. lra. }
  unfold round_div, ZnearestE, Znearest. rewrite F, E.
  assert (C : Rcompare (IZR (a mod b) / IZR b) (/ 2) = (2 * (a mod b) ?= b)).
  { rewrite <- (Rcompare_mult_r (2 * IZR b)) by lra.
    replace (IZR (a mod b) / IZR b * (2 * IZR b))%R with (IZR (2 * (a mod b))) by (rewrite mult_IZR; field; lra).
    replace (/ 2 * (2 * IZR b))%R with (IZR b) by field. apply Rcompare_IZR. }
  rewrite C. destruct (Z.compare_spec (2 * (a mod b)) b) as [H|H|H].
  - destruct (Z.even (a / b)) eqn:Ev; cbn [negb]; [reflexivity|]. rewrite Zceil_floor_neq, F; [reflexivity|].
    rewrite F. intros K. rewrite <- K in E. assert (IZR (a mod b) / IZR b = 0)%R by lra.
    assert (IZR (a mod b) = 0)%R. { apply (Rmult_eq_reg_r (/ IZR b)); [|apply Rinv_neq_0_compat; lra]. unfold Rdiv in *. lra. }
    apply eq_IZR in H1. lia.
  - reflexivity.
  - rewrite Zceil_floor_neq, F; [reflexivity|].
    rewrite F. intros K. rewrite <- K in E. assert (IZR (a mod b) / IZR b = 0)%R by lra.
    assert (IZR (a mod b) = 0)%R. { apply (Rmult_eq_reg_r (/ IZR b)); [|apply Rinv_neq_0_compat; lra]. unfold Rdiv in *. lra. }
    apply eq_IZR in H1. lia.
Qed.

(** ** the decimal exponent *)
Lemma pow_le_spec X p q : 0 < q -> pow_le X p q = true <-> (ten X <= IZR p / IZR q)%R.
Proof.
  intros Q. assert (QR : (0 < IZR q)%R) by now apply IZR_lt. unfold pow_le. destruct (Z.leb_spec 0 X).
  - rewrite Z.leb_le, ten_pow by lia. split; intros K.
    + apply (Rmult_le_reg_r (IZR q)); [exact QR|]. replace (IZR p / IZR q * IZR q)%R with (IZR p) by (field; lra).
      rewrite <- mult_IZR. now apply IZR_le.
    + apply le_IZR. rewrite mult_IZR. apply (Rmult_le_compat_r (IZR q)) in K; [|lra].
      replace (IZR p / IZR q * IZR q)%R with (IZR p) in K by (field; lra). exact K.
  - assert (T : (ten X * IZR (10 ^ (- X)) = 1)%R).
    { rewrite <- ten_pow by lia. rewrite <- bpow_plus. replace (X + - X) with 0 by lia. reflexivity. }
    assert (TP : (0 < IZR (10 ^ (- X)))%R) by (apply IZR_lt; apply Z.pow_pos_nonneg; lia).
    rewrite Z.leb_le. split; intros K.
    + apply (Rmult_le_reg_r (IZR q)); [exact QR|]. replace (IZR p / IZR q * IZR q)%R with (IZR p) by (field; lra).
      apply (Rmult_le_reg_r (IZR (10 ^ (- X)))); [exact TP|].
      replace (ten X * IZR q * IZR (10 ^ (- X)))%R with (IZR q * (ten X * IZR (10 ^ (- X))))%R by ring.
      rewrite T, Rmult_1_r, <- mult_IZR. now apply IZR_le.
    + apply le_IZR. rewrite mult_IZR. apply (Rmult_le_compat_r (IZR q)) in K; [|lra].
      replace (IZR p / IZR q * IZR q)%R with (IZR p) in K by (field; lra).
      apply (Rmult_le_compat_r (IZR (10 ^ (- X)))) in K; [|lra].
      replace (ten X * IZR q * IZR (10 ^ (- X)))%R with (IZR q * (ten X * IZR (10 ^ (- X))))%R in K by ring.
      rewrite T, Rmult_1_r in K. exact K.
Qed.
Lemma leading_spec p q X : 0 < q -> leading p q X = true <-> (ten X <= IZR p / IZR q < ten (X + 1))%R.
Proof.
  intros Q. unfold leading. rewrite andb_true_iff, negb_true_iff, pow_le_spec by exact Q.
  pose proof (pow_le_spec (X + 1) p q Q) as P. destruct (pow_le (X + 1) p q).
  - split; [intros [_ K]; discriminate|]. intros [_ K]. destruct P as [P _]. specialize (P eq_refl). lra.
  - split; intros [A B]; split; try exact A; [|reflexivity].
    destruct (Rlt_le_dec (IZR p / IZR q) (ten (X + 1))) as [K|K]; [exact K|]. destruct P as [_ P]. discriminate (P K).
Qed.
Lemma search10_leading p q : forall fuel X Y, leading p q Y = true -> X <= Y < X + Z.of_nat fuel -> leading p q (search10 fuel p q X) = true.
Proof.
  induction fuel as [|fuel IH]; intros X Y L B; [lia|]. cbn [search10]. destruct (leading p q X) eqn:E; [exact E|].
  apply (IH _ Y L). assert (X <> Y) by congruence. lia.
Qed.
Lemma exp10_leading p q Y : leading p q Y = true -> -400 <= Y < 400 -> leading p q (exp10 p q) = true.
Proof.
  intros L B. unfold exp10. cbv zeta.
  destruct (leading p q ((Z.log2 p - Z.log2 q) * 1233 / 4096)) eqn:E1; [exact E1|].
  destruct (leading p q ((Z.log2 p - Z.log2 q) * 1233 / 4096 + 1)) eqn:E2; [exact E2|].
  destruct (leading p q ((Z.log2 p - Z.log2 q) * 1233 / 4096 - 1)) eqn:E3; [exact E3|].
  apply (search10_leading _ _ _ _ Y L). lia.
Qed.

(** ** six significant digits *)
Lemma ratio_pos m e : 0 < fst (ratio m e) /\ 0 < snd (ratio m e).
Proof. unfold ratio. destruct (Z.leb_spec 0 e); cbn [fst snd]; split; try lia; try apply Z.mul_pos_pos; try lia; apply Z.pow_pos_nonneg; lia. Qed.
Lemma ratio_value m e : (IZR (fst (ratio m e)) / IZR (snd (ratio m e)) = F2R (Float radix2 (Zpos m) e))%R.
Proof.
  unfold ratio, F2R. destruct (Z.leb_spec 0 e); cbn [fst snd Fnum Fexp].
  - rewrite mult_IZR, (IZR_Zpower radix2) by lia. field.
  - rewrite (IZR_Zpower radix2) by lia. rewrite bpow_opp. pose proof (bpow_gt_0 radix2 e). field. lra.
Qed.
(** the range of positive finite doubles *)
Lemma bounded_range m e : SpecFloat.bounded 53 1024 m e = true ->
  (bpow radix2 (-1074) <= F2R (Float radix2 (Zpos m) e) < bpow radix2 1024)%R.
Proof.
  intros B. split; [|now apply (bounded_lt_emax 53 1024)]. exact (bounded_ge_emin 53 1024 m e B).
Qed.
Lemma tiny : (ten (-400) <= bpow radix2 (-1074))%R.
Proof.
  replace (-400) with (- (400)) by lia. replace (-1074) with (- (1074)) by lia. rewrite !bpow_opp.
  apply Rinv_le; [apply bpow_gt_0|]. rewrite <- (IZR_Zpower radix2), ten_pow by lia. apply IZR_le. vm_compute. discriminate.
Qed.
Lemma huge : (bpow radix2 1024 <= ten 400)%R.
Proof. rewrite <- (IZR_Zpower radix2), ten_pow by lia. apply IZR_le. vm_compute. discriminate. Qed.

#[global] Instance prec6 : Prec_gt_0 6 := eq_refl.

Lemma round6_mag x X : (ten X <= x < ten (X + 1))%R -> round6 x = (IZR (ZnearestE (x * ten (5 - X))) * ten (X - 5))%R.
Proof.
  intros B. unfold round6, round, F2R, scaled_mantissa, cexp, FLX_exp. cbn [Fnum Fexp].
  rewrite (mag_unique_pos radix10 x (X + 1)) by (replace (X + 1 - 1) with X by lia; exact B).
  replace (X + 1 - 6) with (X - 5) by lia. replace (- (X - 5)) with (5 - X) by lia. reflexivity.
Qed.
Lemma digits_range x X : (ten X <= x < ten (X + 1))%R -> 100000 <= ZnearestE (x * ten (5 - X)) <= 1000000.
Proof.
  intros [B1 B2]. pose proof (ten_pos (5 - X)) as T.
  assert (L : (IZR 100000 <= x * ten (5 - X))%R).
  { replace (IZR 100000) with (ten X * ten (5 - X))%R. { apply Rmult_le_compat_r; lra. }
    rewrite <- bpow_plus. replace (X + (5 - X)) with 5 by lia. reflexivity. }
  assert (U : (x * ten (5 - X) <= IZR 1000000)%R).
  { replace (IZR 1000000) with (ten (X + 1) * ten (5 - X))%R. { apply Rmult_le_compat_r; lra. }
    rewrite <- bpow_plus. replace (X + 1 + (5 - X)) with 6 by lia. reflexivity. }
  split.
  - rewrite <- (Zrnd_IZR ZnearestE 100000). apply Zrnd_le; [apply valid_rnd_N|exact L].
  - rewrite <- (Zrnd_IZR ZnearestE 1000000). apply Zrnd_le; [apply valid_rnd_N|exact U].
Qed.
Lemma dec6_spec m e D X : SpecFloat.bounded 53 1024 m e = true -> dec6 m e = (D, X) ->
  100000 <= D < 1000000 /\ -400 <= X <= 400 /\ (IZR D * ten (X - 5) = round6 (F2R (Float radix2 (Zpos m) e)))%R.
Proof.
  intros B H. pose proof (bounded_range m e B) as [R1 R2]. pose proof tiny. pose proof huge.
  unfold dec6 in H. destruct (ratio m e) as [p q] eqn:ER. pose proof (ratio_value m e) as V. pose proof (ratio_pos m e) as [P Q].
  rewrite ER in V, P, Q. cbn [fst snd] in V, P, Q. set (x := F2R (Float radix2 (Zpos m) e)) in *.
  assert (XP : (0 < x)%R) by (pose proof (bpow_gt_0 radix2 (-1074)); lra).
  assert (M : (ten (mag radix10 x - 1) <= x < ten (mag radix10 x))%R).
  { destruct (mag radix10 x) as [k K]. cbn [mag_val]. rewrite Rabs_pos_eq in K by lra. apply K. lra. }
  assert (M1 : -400 < mag radix10 x). { apply (mag_gt_bpow radix10). rewrite Rabs_pos_eq by lra. lra. }
  assert (M2 : mag radix10 x <= 400). { apply (mag_le_bpow radix10). { lra. } rewrite Rabs_pos_eq by lra. lra. }
  assert (L : leading p q (exp10 p q) = true).
  { apply (exp10_leading p q (mag radix10 x - 1)); [|lia]. apply leading_spec; [exact Q|]. rewrite V.
    replace (mag radix10 x - 1 + 1) with (mag radix10 x : Z) by lia. exact M. }
  apply leading_spec in L; [|exact Q]. rewrite V in L. cbv zeta in H. set (Y := exp10 p q) in *.
  assert (YM : Y + 1 = mag radix10 x) by (symmetry; apply (mag_unique_pos radix10 x (Y + 1)); replace (Y + 1 - 1) with Y by lia; exact L).
  assert (QR : (0 < IZR q)%R) by now apply IZR_lt.
  assert (DE : (if Y <=? 5 then round_div (p * 10 ^ (5 - Y)) q else round_div p (q * 10 ^ (Y - 5))) = ZnearestE (x * ten (5 - Y))).
  { destruct (Z.leb_spec Y 5).
    - rewrite round_div_spec by exact Q. f_equal. rewrite mult_IZR, <- ten_pow by lia. rewrite <- V. field. lra.
    - assert (TQ : 0 < 10 ^ (Y - 5)) by (apply Z.pow_pos_nonneg; lia).
      rewrite round_div_spec by (apply Z.mul_pos_pos; lia). f_equal. rewrite mult_IZR, <- ten_pow by lia. rewrite <- V.
      replace (5 - Y) with (- (Y - 5)) by lia. rewrite bpow_opp. pose proof (ten_pos (Y - 5)). field. lra. }
  rewrite DE in H. pose proof (digits_range x Y L) as DR. pose proof (round6_mag x Y L) as RM.
  set (N := ZnearestE (x * ten (5 - Y))) in *. clearbody N. clearbody Y.
  destruct (Z.eqb_spec N 1000000) as [E|E]; injection H as <- <-.
  - split; [lia|]. split; [lia|]. rewrite RM, E. replace (IZR 1000000) with (IZR 100000 * 10)%R by lra.
    replace (Y + 1 - 5) with (Y - 5 + 1) by lia. rewrite (bpow_plus radix10). replace (ten 1) with 10%R by reflexivity. ring.
  - split; [lia|]. split; [lia|]. rewrite RM. reflexivity.
Qed.

(** ** the double nearest to a decimal *)
Lemma div_round_spec (s : bool) p q :
  let x := (if s then - (IZR (Zpos p) / IZR (Zpos q)) else IZR (Zpos p) / IZR (Zpos q))%R in
  let z := SF2B _ (div_round_valid s p q) : f64 in
  if Rlt_bool (Rabs (round64 x)) (bpow radix2 1024) then B2R z = round64 x /\ is_finite z = true /\ Bsign z = s
  else z = B754_infinity s.
Proof.
  cbv zeta. set (x := (if s then - (IZR (Zpos p) / IZR (Zpos q)) else IZR (Zpos p) / IZR (Zpos q))%R).
  assert (H : if Rlt_bool (Rabs (round64 x)) (bpow radix2 1024)
              then SF2R radix2 (div_round s p q) = round64 x /\ is_finite_SF (div_round s p q) = true /\ sign_SF (div_round s p q) = s
              else div_round s p q = binary_overflow 53 1024 mode_NE s).
  { pose proof (div_round_x s p q) as K. cbv zeta in K. fold x in K. unfold div_round.
    destruct (Fdiv _ _ _) as [[m e] l]. destruct K as (H1 & H2 & H3 & H4).
    pose proof (binary_round_aux_correct' 53 1024 _ _ mode_NE _ m e l H1 H2 H3) as H. cbv zeta in H. rewrite H4 in H. exact (proj2 H). }
  rewrite B2R_SF2B, is_finite_SF2B, Bsign_SF2B. destruct (Rlt_bool _ _). { exact H. }
  apply B2SF_inj. rewrite B2SF_SF2B. exact H.
Qed.
Lemma of_dec_spec (neg : bool) N E : 0 < N ->
  let x := (if neg then - (IZR N * ten E) else IZR N * ten E)%R in
  if Rlt_bool (Rabs (round64 x)) (bpow radix2 1024)
  then B2R (of_dec neg N E) = round64 x /\ is_finite (of_dec neg N E) = true /\ Bsign (of_dec neg N E) = neg
  else of_dec neg N E = B754_infinity neg.
Proof.
  intros NP. destruct N as [|n|n]; try lia. cbv zeta. unfold of_dec. destruct (Z.leb_spec 0 E).
  - assert (T : 0 < 10 ^ E) by (apply Z.pow_pos_nonneg; lia).
    pose proof (div_round_spec neg (n * Z.to_pos (10 ^ E)) 1) as K. cbv zeta in K.
    replace (IZR (Zpos (n * Z.to_pos (10 ^ E))) / IZR 1)%R with (IZR (Zpos n) * ten E)%R in K; [exact K|].
    rewrite Pos2Z.inj_mul, Z2Pos.id, mult_IZR, <- ten_pow by lia. field.
  - assert (T : 0 < 10 ^ (- E)) by (apply Z.pow_pos_nonneg; lia).
    pose proof (div_round_spec neg n (Z.to_pos (10 ^ (- E)))) as K. cbv zeta in K.
    replace (IZR (Zpos n) / IZR (Zpos (Z.to_pos (10 ^ (- E)))))%R with (IZR (Zpos n) * ten E)%R in K; [exact K|].
    rewrite Z2Pos.id, <- ten_pow, bpow_opp by lia. pose proof (ten_pos E). field. lra.
Qed.

(** ** digits as text *)
Lemma char_digit_char d : digit d -> char_digit (digit_char d) = Some d.
Proof.
  intros H. unfold char_digit. rewrite digit_char_N by exact H. unfold digit in H. rewrite Z2N.id by lia.
  rewrite (proj2 (Z.leb_le _ _)), (proj2 (Z.leb_le _ _)) by lia. cbn [andb]. f_equal. lia.
Qed.
Lemma is_digit_char d : digit d -> is_digit (digit_char d) = true.
Proof. intros H. unfold is_digit. now rewrite char_digit_char. Qed.
(** [l] does not start with a character of the class [f] *)
Definition free (f : ascii -> bool) (l : list ascii) : Prop := match l with c :: _ => f c = false | [] => True end.
Lemma scan_digits ds : forall a n rest, Forall digit ds -> free is_digit rest ->
  scan a n (map digit_char ds ++ rest) = (a * 10 ^ Z.of_nat (List.length ds) + value ds, (n + List.length ds)%nat, rest).
Proof.
  induction ds as [|d ds IH]; intros a n rest D F; cbn [map app List.length scan].
  - replace (a * 10 ^ Z.of_nat 0 + value []) with a by (unfold value; simpl; lia). replace (n + 0)%nat with n by lia.
    destruct rest as [|c rest]; cbn [scan]; [reflexivity|]. cbn [free] in F. unfold is_digit in F. now destruct (char_digit c).
  - inversion_clear D. rewrite char_digit_char by assumption. rewrite IH by assumption. rewrite (value_cons d ds), Nat2Z.inj_succ, Z.pow_succ_r by lia.
    rewrite Nat.add_succ_r. f_equal. f_equal. ring.
Qed.
Lemma zeros_digits n : zeros n = map digit_char (repeat 0 n).
Proof. unfold zeros. induction n as [|n IH]; cbn [repeat map]; [reflexivity|]. now rewrite IH. Qed.
Lemma repeat_digit n : Forall digit (repeat 0 n).
Proof. apply Forall_forall. intros x H. apply repeat_spec in H. subst x. unfold digit. lia. Qed.
Lemma value_app l l' : value (l ++ l') = value l * 10 ^ Z.of_nat (List.length l') + value l'.
Proof. unfold value at 1. rewrite fold_left_app. apply value_acc. Qed.
Lemma value_zeros_r n l : value (l ++ repeat 0 n) = value l * 10 ^ Z.of_nat n.
Proof.
  rewrite value_app, repeat_length. replace (value (repeat 0 n)) with 0; [lia|]. symmetry.
  rewrite <- (app_nil_r (repeat 0 n)), value_zeros. reflexivity.
Qed.
Lemma digits_Forall z : 0 <= z -> Forall digit (digits z). Proof. intros H. now destruct (digits_spec z H). Qed.
Lemma digits_value z : 0 <= z -> value (digits z) = z. Proof. intros H. now destruct (digits_spec z H) as (_ & ? & _). Qed.
Lemma strip_spec : forall fuel D D' k, 0 < D -> strip fuel D = (D', k) -> D = D' * 10 ^ Z.of_nat k /\ 0 < D' /\ (k <= fuel)%nat.
Proof.
  induction fuel as [|fuel IH]; intros D D' k P H; cbn [strip] in H. { injection H as <- <-. change (Z.of_nat 0) with 0. rewrite Z.pow_0_r. lia. }
  destruct (Z.eqb_spec (D mod 10) 0) as [E|E].
  - destruct (strip fuel (D / 10)) as [D1 k1] eqn:S. injection H as <- <-.
    pose proof (Z.div_mod D 10 ltac:(lia)). assert (0 < D / 10) by lia.
    destruct (IH _ _ _ H0 S) as (A & B & C). split; [|lia]. rewrite Nat2Z.inj_succ, Z.pow_succ_r by lia. lia.
  - injection H as <- <-. change (Z.of_nat 0) with 0. rewrite Z.pow_0_r. lia.
Qed.
Lemma digits_count z n : 10 ^ Z.of_nat n <= z < 10 ^ Z.of_nat (S n) -> List.length (digits z) = S n.
Proof.
  intros H. assert (0 <= z) by (pose proof (Z.pow_nonneg 10 (Z.of_nat n)); lia).
  pose proof (proj2 (digits_length z (S n) H0 ltac:(lia)) ltac:(lia)). destruct n as [|n].
  - assert (digits z <> []) by now apply digits_nonempty. destruct (digits z); [congruence|]. cbn [List.length] in *. lia.
  - assert (~ (List.length (digits z) <= S n)%nat). { intros K. apply digits_length in K; lia. } lia.
Qed.
Lemma stripped_digits D D' k : 100000 <= D < 1000000 -> strip 5 D = (D', k) ->
  D = D' * 10 ^ Z.of_nat k /\ 0 < D' /\ (k <= 5)%nat /\ List.length (digits D') = (6 - k)%nat.
Proof.
  intros B S. assert (DP : 0 < D) by lia. destruct (strip_spec _ _ _ _ DP S) as (E & P & K). split; [exact E|]. split; [exact P|]. split; [exact K|].
  replace (6 - k)%nat with (Datatypes.S (5 - k)) by lia. apply digits_count.
  assert (T : 0 < 10 ^ Z.of_nat k) by (apply Z.pow_pos_nonneg; lia).
  assert (T5 : 10 ^ Z.of_nat (5 - k) * 10 ^ Z.of_nat k = 100000). { rewrite <- Z.pow_add_r by lia. replace (Z.of_nat (5 - k) + Z.of_nat k) with 5 by lia. reflexivity. }
  rewrite Nat2Z.inj_succ, Z.pow_succ_r by lia. nia.
Qed.

(** ** reading back what was printed *)
Lemma digit_not_sign d : digit d -> is_sign (digit_char d) = false.
Proof.
  intros H. unfold digit in H. assert (C : d = 0 \/ d = 1 \/ d = 2 \/ d = 3 \/ d = 4 \/ d = 5 \/ d = 6 \/ d = 7 \/ d = 8 \/ d = 9) by lia.
  repeat destruct C as [C|C]; subst d; reflexivity.
Qed.
Lemma scan_sign_text s l : free is_sign l -> scan_sign (sign_text s ++ l) = (s, l).
Proof.
  intros F. destruct s; cbn [sign_text app scan_sign]. { reflexivity. }
  destruct l as [|c r]; [reflexivity|]. cbn [free] in F. unfold is_sign in F. apply orb_false_iff in F. destruct F as [F1 F2]. cbn [app scan_sign]. now rewrite F2, F1.
Qed.
(** what may follow a number in the files *)
Definition stop (c : ascii) : bool := is_digit c || is_sign c || is_exp c || Ascii.eqb c ".".
Lemma stop_digit l : free stop l -> free is_digit l.
Proof. destruct l as [|c r]; [easy|]. cbn [free]. unfold stop. intros H. repeat rewrite orb_false_iff in H. tauto. Qed.
Lemma stop_exp l : free stop l -> free is_exp l.
Proof. destruct l as [|c r]; [easy|]. cbn [free]. unfold stop. intros H. repeat rewrite orb_false_iff in H. tauto. Qed.
(** a numeral made of integer digits, fraction digits and an exponent *)
Definition spelled (ds fs : list Z) (x : option (bool * list Z)) : list ascii :=
  map digit_char ds ++ (match fs with [] => [] | _ => "."%char :: map digit_char fs end)
  ++ match x with Some (n, es) => "e"%char :: (if n then "-"%char else "+"%char) :: map digit_char es | None => [] end.
Definition exponent (x : option (bool * list Z)) : Z :=
  match x with Some (n, es) => if n then - value es else value es | None => 0 end.
Definition spells (ds fs : list Z) (x : option (bool * list Z)) : Prop :=
  ds <> [] /\ Forall digit ds /\ Forall digit fs /\ match x with Some (_, es) => es <> [] /\ Forall digit es | None => True end.
Lemma numeral_spelled s ds fs x rest : spells ds fs x -> free stop rest ->
  numeral (sign_text s ++ spelled ds fs x ++ rest) = Some (s, value (ds ++ fs), exponent x - Z.of_nat (List.length fs), rest).
Proof.
  intros (N & D & F & X) S. unfold numeral.
  assert (L0 : (0 < List.length ds)%nat) by (destruct ds; [congruence|cbn [List.length]; lia]).
  rewrite scan_sign_text; cycle 1.
  { unfold spelled. destruct ds as [|d ds]; [congruence|]. cbn [map app free]. inversion_clear D. now apply digit_not_sign. }
  unfold spelled. rewrite <- !app_assoc.
  set (ex := match x with Some (n, es) => "e"%char :: (if n then "-"%char else "+"%char) :: map digit_char es | None => [] end).
  assert (T : forall b E : Z, match ex ++ rest with
    | c :: r => if is_exp c then let '(eneg, r1) := scan_sign r in let '(x0, j, r2) := scan 0 0 r1 in
                  if (j =? 0)%nat then Some (s, b, E, ex ++ rest) else Some (s, b, E + (if eneg then - x0 else x0), r2)
                else Some (s, b, E, ex ++ rest)
    | [] => Some (s, b, E, ex ++ rest) end = Some (s, b, E + exponent x, rest)).
  { intros b E. destruct x as [[n es]|]; subst ex; cbn [app exponent].
    - destruct X as [X1 X2]. change (is_exp "e") with true. cbv iota.
      replace (scan_sign ((if n then "-"%char else "+"%char) :: map digit_char es ++ rest)) with (n, map digit_char es ++ rest)
        by (destruct n; reflexivity).
      rewrite scan_digits by (auto using stop_digit). cbn [Nat.add].
      assert (0 < List.length es)%nat by (destruct es; [congruence|cbn [List.length]; lia]).
      rewrite (proj2 (Nat.eqb_neq _ _)) by lia. rewrite Z.mul_0_l, Z.add_0_l. reflexivity.
    - rewrite Z.add_0_r. apply stop_exp in S. destruct rest as [|c r]; [reflexivity|]. cbn [free] in S. now rewrite S. }
  assert (FX : free is_digit (ex ++ rest)).
  { destruct x as [[n es]|]; subst ex; cbn [app free]; [reflexivity|]. now apply stop_digit. }
  destruct fs as [|f fs].
  - cbn [app]. rewrite scan_digits by assumption. cbn [Nat.add].
    assert (DT : match ex ++ rest with
      | c :: r => if Ascii.eqb c "." then let '(b, k, r') := scan (0 * 10 ^ Z.of_nat (List.length ds) + value ds) 0 r in
           if (List.length ds + k =? 0)%nat then (0 * 10 ^ Z.of_nat (List.length ds) + value ds, O, ex ++ rest) else (b, k, r')
          else (0 * 10 ^ Z.of_nat (List.length ds) + value ds, O, ex ++ rest)
      | [] => (0 * 10 ^ Z.of_nat (List.length ds) + value ds, O, ex ++ rest) end = (value ds, O, ex ++ rest)).
    { rewrite Z.mul_0_l, Z.add_0_l. destruct x as [[n es]|]; subst ex; cbn [app]; [reflexivity|].
      destruct rest as [|c r]; [reflexivity|]. cbn [free] in S. unfold stop in S. rewrite orb_false_iff in S. destruct S as [_ S]. now rewrite S. }
    rewrite DT. cbn [Nat.add]. rewrite (proj2 (Nat.eqb_neq _ _)) by lia. rewrite T, app_nil_r. cbn [List.length Z.of_nat]. f_equal. f_equal. f_equal. lia.
  - assert (FD : free is_digit (("."%char :: map digit_char (f :: fs)) ++ ex ++ rest)) by reflexivity.
    rewrite scan_digits by assumption. cbn [Nat.add].
    change ((("."%char :: map digit_char (f :: fs)) ++ ex ++ rest)) with ("."%char :: (map digit_char (f :: fs) ++ ex ++ rest)).
    cbv iota beta. change (Ascii.eqb "." ".") with true. cbv iota.
    rewrite scan_digits by assumption. cbn [Nat.add].
    rewrite (proj2 (Nat.eqb_neq _ _)) by lia. rewrite (proj2 (Nat.eqb_neq _ _)) by lia. rewrite T. rewrite (value_app ds), Z.mul_0_l, Z.add_0_l.
    f_equal. f_equal. f_equal. lia.
Qed.

Lemma fst_digits n l : firstn n (digit_text l) = map digit_char (firstn n (digits l)).
Proof. unfold digit_text. now rewrite firstn_map. Qed.
Lemma snd_digits n l : skipn n (digit_text l) = map digit_char (skipn n (digits l)).
Proof. unfold digit_text. now rewrite skipn_map. Qed.
Lemma Forall_firstn {A} (P : A -> Prop) n l : Forall P l -> Forall P (firstn n l).
Proof. intros H. rewrite <- (firstn_skipn n l) in H. now apply Forall_app in H. Qed.
Lemma Forall_skipn {A} (P : A -> Prop) n l : Forall P l -> Forall P (skipn n l).
Proof. intros H. rewrite <- (firstn_skipn n l) in H. now apply Forall_app in H. Qed.
Lemma spelled_point ds fs x : fs <> [] ->
  spelled ds fs x = map digit_char ds ++ ("."%char :: map digit_char fs) ++ match x with Some (n, es) => "e"%char :: (if n then "-"%char else "+"%char) :: map digit_char es | None => [] end.
Proof. destruct fs; [congruence|]. intros _. reflexivity. Qed.

Lemma layout_spelled D X : 100000 <= D < 1000000 ->
  exists ds fs x, layout D X = spelled ds fs x /\ spells ds fs x /\ 0 < value (ds ++ fs) /\
    (IZR (value (ds ++ fs)) * ten (exponent x - Z.of_nat (List.length fs)) = IZR D * ten (X - 5))%R.
Proof.
  intros B. unfold layout. destruct (strip 5 D) as [D' k] eqn:ES. destruct (stripped_digits D D' k B ES) as (E & P & K & L).
  pose proof (digits_Forall D' ltac:(lia)) as DF. pose proof (digits_value D' ltac:(lia)) as DV.
  assert (LT : List.length (digit_text D') = (6 - k)%nat) by (unfold digit_text; now rewrite map_length).
  assert (V : forall n, (IZR D' * ten (X + Z.of_nat k - 5 - n) * ten n = IZR D * ten (X - 5))%R).
  { intros n. rewrite E, mult_IZR, <- ten_pow by lia. rewrite !Rmult_assoc, <- !bpow_plus. f_equal. f_equal. lia. }
  destruct ((-4 <=? X) && (X <? 6)) eqn:FX.
  - rewrite andb_true_iff, Z.leb_le, Z.ltb_lt in FX. cbv zeta. destruct (Z.leb_spec 0 X) as [X0|X0].
    + rewrite LT. destruct (Nat.leb_spec (6 - k) (Z.to_nat (X + 1))) as [C|C].
      * exists (digits D' ++ repeat 0 (Z.to_nat (X + 1) - (6 - k))), [], None. split; [|split; [|split]].
        -- unfold spelled. rewrite !app_nil_r, map_app, zeros_digits. reflexivity.
        -- split; [|split; [|split]]; [|apply Forall_app; split; [exact DF|apply repeat_digit]|constructor|exact I].
           intros N. apply app_eq_nil in N. destruct N as [N _]. rewrite N in L. cbn [List.length] in L. lia.
        -- rewrite app_nil_r, value_zeros_r, DV. apply Z.mul_pos_pos; [lia|]. apply Z.pow_pos_nonneg; lia.
        -- rewrite app_nil_r, value_zeros_r, DV, mult_IZR, <- ten_pow by lia. cbn [List.length exponent].
           rewrite <- (V 0). rewrite Rmult_assoc, <- bpow_plus. rewrite Rmult_assoc, <- bpow_plus. f_equal. f_equal. lia.
      * exists (firstn (Z.to_nat (X + 1)) (digits D')), (skipn (Z.to_nat (X + 1)) (digits D')), None. split; [|split; [|split]].
        -- rewrite spelled_point; [rewrite app_nil_r, fst_digits, snd_digits; reflexivity|].
           intros N. apply (f_equal (@List.length Z)) in N. rewrite skipn_length in N. cbn [List.length] in N. lia.
        -- split; [|split; [|split]]; [|now apply Forall_firstn|now apply Forall_skipn|exact I].
           intros N. apply (f_equal (@List.length Z)) in N. rewrite firstn_length in N. cbn [List.length] in N. lia.
        -- rewrite firstn_skipn, DV. exact P.
        -- rewrite firstn_skipn, DV, skipn_length, L. cbn [exponent]. rewrite <- (V 0), Rmult_assoc, <- bpow_plus. f_equal. f_equal. lia.
    + exists [0], (repeat 0 (Z.to_nat (- X - 1)) ++ digits D'), None. split; [|split; [|split]].
      * rewrite spelled_point; [cbn [map app]; rewrite app_nil_r, map_app, zeros_digits; reflexivity|].
        intros N. apply (f_equal (@List.length Z)) in N. rewrite app_length in N. cbn [List.length] in N. lia.
      * split; [congruence|]. split; [constructor; [unfold digit; lia|constructor]|]. split; [|exact I].
        apply Forall_app. split; [apply repeat_digit|exact DF].
      * rewrite value_app, value_zeros, DV. cbn [value fold_left]. unfold value. cbn [fold_left]. lia.
      * rewrite value_app, value_zeros, DV, app_length, repeat_length, L. unfold value. cbn [fold_left exponent].
        replace ((0 * 10 + 0) * 10 ^ Z.of_nat (Z.to_nat (- X - 1) + (6 - k)) + D') with D' by lia.
        rewrite <- (V 0), Rmult_assoc, <- bpow_plus. f_equal. f_equal. lia.
  - assert (XA : 0 <= Z.abs X) by lia. cbv zeta.
    assert (EX : forall n, zeros n ++ digit_text (Z.abs X) = map digit_char (repeat 0 n ++ digits (Z.abs X))) by (intros n; rewrite map_app, zeros_digits; reflexivity).
    rewrite LT, EX. set (es := repeat 0 (2 - List.length (digit_text (Z.abs X))) ++ digits (Z.abs X)).
    assert (ESF : Forall digit es) by (apply Forall_app; split; [apply repeat_digit|now apply digits_Forall]).
    assert (ESV : value es = Z.abs X) by (subst es; rewrite value_zeros; now apply digits_value).
    assert (ESN : es <> []). { subst es. intros N. apply app_eq_nil in N. destruct N as [_ N]. now apply digits_nonempty in N. }
    clearbody es.
    assert (EXP : exponent (Some (X <? 0, es)) = X) by (cbn [exponent]; rewrite ESV; destruct (Z.ltb_spec X 0); lia).
    exists (firstn 1 (digits D')), (skipn 1 (digits D')), (Some (X <? 0, es)). split; [|split; [|split]].
    + destruct (Nat.leb_spec (6 - k) 1) as [C|C].
      * unfold spelled. replace (skipn 1 (digits D')) with (@nil Z) by (symmetry; apply skipn_all2; lia). rewrite fst_digits. reflexivity.
      * rewrite spelled_point. { rewrite fst_digits, snd_digits. reflexivity. }
        intros N. apply (f_equal (@List.length Z)) in N. rewrite skipn_length in N. cbn [List.length] in N. lia.
    + split; [|split; [|split]]; [|now apply Forall_firstn|now apply Forall_skipn|now split].
      intros N. apply (f_equal (@List.length Z)) in N. rewrite firstn_length in N. cbn [List.length] in N. lia.
    + rewrite firstn_skipn, DV. exact P.
    + rewrite firstn_skipn, DV, skipn_length, L, EXP. rewrite <- (V 0), Rmult_assoc, <- bpow_plus. f_equal. f_equal. lia.
Qed.

Lemma digit_not_exp d : digit d -> is_exp (digit_char d) = false.
Proof.
  intros H. unfold digit in H. assert (C : d = 0 \/ d = 1 \/ d = 2 \/ d = 3 \/ d = 4 \/ d = 5 \/ d = 6 \/ d = 7 \/ d = 8 \/ d = 9) by lia.
  repeat destruct C as [C|C]; subst d; reflexivity.
Qed.
Lemma collect_digits ds : forall mant dot sci aft l, Forall digit ds -> ds <> [] ->
  collect mant dot sci aft (map digit_char ds ++ l) = let '(t, r) := collect true dot sci false l in (map digit_char ds ++ t, r).
Proof.
  induction ds as [|d ds IH]; intros mant dot sci aft l D N; [congruence|]. inversion_clear D. cbn [map app collect]. rewrite is_digit_char by assumption.
  destruct ds as [|d' ds].
  - cbn [map app]. destruct (collect true dot sci false l) as [t r]. reflexivity.
  - rewrite IH by (assumption || congruence). destruct (collect true dot sci false l) as [t r]. reflexivity.
Qed.
Lemma collect_stop mant dot sci l : free stop l -> collect mant dot sci false l = ([], l).
Proof.
  destruct l as [|c l]; [reflexivity|]. cbn [free collect]. unfold stop. rewrite !orb_false_iff. intros [[[F1 F2] F3] F4].
  rewrite F1, F4, F3, F2. reflexivity.
Qed.
Lemma collect_spelled ds fs x rest : spells ds fs x -> free stop rest ->
  collect false false false false (spelled ds fs x ++ rest) = (spelled ds fs x, rest).
Proof.
  intros (N & D & F & X) S. unfold spelled. rewrite <- !app_assoc, collect_digits by assumption.
  set (ex := match x with Some (n, es) => "e"%char :: (if n then "-"%char else "+"%char) :: map digit_char es | None => [] end).
  assert (T : forall dot, collect true dot false false (ex ++ rest) = (ex, rest)).
  { intros dot. destruct x as [[n es]|]; subst ex; [|now apply collect_stop]. destruct X as [X1 X2]. cbn [app collect].
    change (is_digit "e") with false. change (Ascii.eqb "e" ".") with false. change (is_exp "e") with true. cbn [andb negb].
    assert (SG : forall c, is_sign c = true -> is_digit c = false -> Ascii.eqb c "." = false -> is_exp c = false ->
      (if is_digit c then let '(t, r') := collect true dot true false (map digit_char es ++ rest) in (c :: t, r')
       else if Ascii.eqb c "." && negb dot && false then let '(t, r') := collect true true true false (map digit_char es ++ rest) in (c :: t, r')
       else if is_exp c && false && true then let '(t, r') := collect true dot true true (map digit_char es ++ rest) in (c :: t, r')
       else if is_sign c && true then let '(t, r') := collect true dot true false (map digit_char es ++ rest) in (c :: t, r')
       else ([], c :: map digit_char es ++ rest)) = (c :: map digit_char es, rest)).
    { intros c C1 C2 C3 C4. rewrite C1, C2, C3, C4. cbn [andb]. rewrite collect_digits by assumption. rewrite collect_stop by exact S.
      now rewrite app_nil_r. }
    rewrite SG by (destruct n; reflexivity). reflexivity. }
  destruct fs as [|f fs].
  - cbn [app]. rewrite T. reflexivity.
  - cbn [app]. change (collect true false false false ("."%char :: map digit_char (f :: fs) ++ ex ++ rest))
      with (let '(t, r') := collect true true false false (map digit_char (f :: fs) ++ ex ++ rest) in ("."%char :: t, r')).
    rewrite collect_digits by (assumption || congruence). rewrite T. reflexivity.
Qed.
Lemma token_spelled s ds fs x rest : spells ds fs x -> free stop rest ->
  token (sign_text s ++ spelled ds fs x ++ rest) = (sign_text s ++ spelled ds fs x, rest).
Proof.
  intros H S. destruct s; cbn [sign_text app token].
  - change (is_sign "-") with true. cbv iota. rewrite collect_spelled by assumption. reflexivity.
  - unfold token. pose proof (collect_spelled ds fs x rest H S) as C.
    destruct (spelled ds fs x ++ rest) as [|c r] eqn:E.
    + rewrite <- C. reflexivity.
    + replace (is_sign c) with false; [exact C|]. destruct H as (N & D & _). unfold spelled in E. destruct ds as [|d ds]; [congruence|].
      cbn [map app] in E. injection E as <- _. inversion_clear D. symmetry. now apply digit_not_sign.
Qed.

Lemma round6_opp x : round6 (- x) = (- round6 x)%R.
Proof. unfold round6. apply round_NE_opp. Qed.
Lemma round64_opp x : round64 (- x) = (- round64 x)%R.
Proof. unfold round64. apply round_NE_opp. Qed.
Lemma round6_le x y : (x <= y)%R -> (round6 x <= round6 y)%R.
Proof. intros H. unfold round6. apply round_le; [apply FLX_exp_valid; exact prec6|apply valid_rnd_N|exact H]. Qed.
Lemma fexp64_valid : Valid_exp fexp64.
Proof. exact (fexp_correct 53 1024 Hprec53). Qed.
Lemma round64_le x y : (x <= y)%R -> (round64 x <= round64 y)%R.
Proof. intros H. unfold round64. apply round_le; [apply fexp64_valid|apply valid_rnd_N|exact H]. Qed.
(** the largest double stays finite when it is printed and read back *)
Definition max_m : positive := 9007199254740991.
Lemma max_bounded : SpecFloat.bounded 53 1024 max_m 971 = true. Proof. reflexivity. Qed.
Lemma max_dec6 : dec6 max_m 971 = (179769, 308). Proof. vm_compute. reflexivity. Qed.
Lemma finite_le_max m e : SpecFloat.bounded 53 1024 m e = true -> (F2R (Float radix2 (Zpos m) e) <= F2R (Float radix2 (Zpos max_m) 971))%R.
Proof.
  intros B. pose proof (bounded_le_emax_minus_prec 53 1024 Hprec53 m e B) as H.
  replace (F2R (Float radix2 (Zpos max_m) 971)) with (bpow radix2 1024 - bpow radix2 (1024 - 53))%R; [exact H|].
  unfold F2R. cbn [Fnum Fexp]. change (1024 - 53) with 971. change 1024 with (53 + 971). rewrite bpow_plus.
  replace (bpow radix2 53) with (IZR (Zpos max_m) + 1)%R by (rewrite <- (IZR_Zpower radix2), <- plus_IZR by lia; reflexivity). ring.
Qed.
Lemma round6_range m e : SpecFloat.bounded 53 1024 m e = true ->
  (0 <= round6 (F2R (Float radix2 (Zpos m) e)) <= F2R (Float radix2 (Zpos max_m) 971))%R.
Proof.
  intros B. split.
  - replace 0%R with (round6 0). { apply round6_le. apply F2R_ge_0. cbn. lia. }
    unfold round6. apply round_0. apply valid_rnd_N.
  - destruct (dec6_spec _ _ _ _ max_bounded max_dec6) as (_ & _ & V).
    apply Rle_trans with (round6 (F2R (Float radix2 (Zpos max_m) 971))). { apply round6_le. now apply finite_le_max. }
    rewrite <- V. change (308 - 5) with 303. rewrite ten_pow by lia. unfold F2R. cbn [Fnum Fexp]. rewrite <- (IZR_Zpower radix2) by lia.
    rewrite <- !mult_IZR. apply IZR_le. vm_compute. discriminate.
Qed.
Lemma round64_max : round64 (F2R (Float radix2 (Zpos max_m) 971)) = F2R (Float radix2 (Zpos max_m) 971).
Proof.
  unfold round64. apply round_generic; [apply valid_rnd_N|].
  exact (generic_format_B2R 53 1024 (B754_finite false max_m 971 max_bounded)).
Qed.
Lemma round64_0 : round64 0 = 0%R. Proof. unfold round64. apply round_0. apply valid_rnd_N. Qed.
Lemma no_overflow m e (s : bool) : SpecFloat.bounded 53 1024 m e = true -> let r := round6 (F2R (Float radix2 (Zpos m) e)) in
  Rlt_bool (Rabs (round64 (if s then - r else r))) (bpow radix2 1024) = true.
Proof.
  intros B r. apply Rlt_bool_true. pose proof (round6_range m e B) as [R0 R1]. fold r in R0, R1.
  replace (Rabs (round64 (if s then (- r)%R else r))) with (round64 r).
  - apply Rle_lt_trans with (round64 (F2R (Float radix2 (Zpos max_m) 971))). { now apply round64_le. }
    rewrite round64_max. apply (bounded_lt_emax 53 1024). exact max_bounded.
  - assert (P : (0 <= round64 r)%R) by (rewrite <- round64_0; now apply round64_le).
    destruct s; [rewrite round64_opp, Rabs_Ropp|]; now rewrite Rabs_pos_eq.
Qed.

(** reading back what was printed *)
Lemma B2R_finite s m e B : B2R (B754_finite s m e B : f64) = (if s then - F2R (Float radix2 (Zpos m) e) else F2R (Float radix2 (Zpos m) e))%R.
Proof. destruct s; cbn [B2R cond_Zopp]; [apply F2R_Zopp|reflexivity]. Qed.
Lemma show_spelled (x : f64) : is_finite x = true -> exists s ds fs ex, show x = sign_text s ++ spelled ds fs ex /\ spells ds fs ex /\
  as_printed x (of_dec s (value (ds ++ fs)) (exponent ex - Z.of_nat (List.length fs))).
Proof.
  intros F. destruct x as [s| | |s m e B]; try discriminate F.
  - exists s, [0], [], None. split; [reflexivity|]. split. { repeat split; [congruence|repeat constructor; lia|constructor]. }
    cbn [exponent List.length app]. unfold value. cbn [fold_left]. change (0 * 10 + 0) with 0. cbn [of_dec]. split; [reflexivity|]. split; [reflexivity|].
    cbn [B2R]. unfold round6. rewrite round_0 by apply valid_rnd_N. now rewrite round64_0.
  - cbn [show]. destruct (dec6 m e) as [D X] eqn:E. destruct (dec6_spec m e D X B E) as (R1 & R2 & V).
    destruct (layout_spelled D X R1) as (ds & fs & ex & L & S & P & V').
    exists s, ds, fs, ex. rewrite L. split; [reflexivity|]. split; [exact S|].
    pose proof (of_dec_spec s (value (ds ++ fs)) (exponent ex - Z.of_nat (List.length fs)) P) as K. cbv zeta in K.
    rewrite V', V in K. pose proof (no_overflow m e s B) as NO. cbv zeta in NO. rewrite NO in K. destruct K as (K1 & K2 & K3).
    split; [exact K2|]. split; [exact K3|]. rewrite K1, B2R_finite. f_equal. destruct s; [now rewrite round6_opp|reflexivity].
Qed.

Lemma get_double_show (x : f64) rest : is_finite x = true -> free stop rest ->
  exists y, get_double (show x ++ rest) = (y, true, rest) /\ as_printed x y.
Proof.
  intros F S. destruct (show_spelled x F) as (s & ds & fs & ex & E & SP & A). rewrite E, <- app_assoc.
  unfold get_double. rewrite token_spelled by assumption.
  pose proof (numeral_spelled s ds fs ex [] SP I) as N. rewrite app_nil_r in N. rewrite N.
  destruct A as (A1 & A2 & A3). eexists. rewrite A1. split; [reflexivity|]. now split.
Qed.

(** ** the printed text is a fixed point of reading and printing *)
Lemma ten_split X n : ten X = (ten (X - n) * ten n)%R.
Proof. rewrite <- bpow_plus. f_equal. lia. Qed.
(** any number within a ten-millionth of a 6-digit decimal prints as that decimal *)
Lemma round6_near D X w : 100000 <= D < 1000000 -> let d := (IZR D * ten (X - 5))%R in
  (Rabs (w - d) <= d / 10000000)%R -> round6 w = d.
Proof.
  intros [D1 D2] d H. pose proof (ten_pos (X - 5)) as T. set (t := ten (X - 5)) in *.
  assert (R1 : (100000 <= IZR D)%R) by now apply IZR_le. assert (R2 : (IZR D <= 999999)%R) by (apply IZR_le; lia).
  assert (TX : ten X = (100000 * t)%R). { rewrite (ten_split X 5). fold t. replace (ten 5) with 100000%R by reflexivity. ring. }
  assert (TX1 : ten (X + 1) = (1000000 * t)%R). { rewrite (ten_split (X + 1) 6). replace (X + 1 - 6) with (X - 5) by lia. fold t. replace (ten 6) with 1000000%R by reflexivity. ring. }
  apply Rabs_le_inv in H. unfold d in H.
  assert (B : (IZR D * t / 10000000 <= t / 10)%R) by nra.
  destruct (Rle_lt_dec (ten X) w) as [C|C].
  - rewrite (round6_mag w X) by (split; [exact C|rewrite TX1; nra]). fold t. unfold d. f_equal. f_equal. apply Znearest_imp.
    assert (TI : (t * ten (5 - X) = 1)%R). { unfold t. rewrite <- bpow_plus. replace (X - 5 + (5 - X)) with 0 by lia. reflexivity. }
    pose proof (ten_pos (5 - X)) as U. set (u := ten (5 - X)) in *.
    replace (w * u - IZR D)%R with ((w - IZR D * t) * u)%R by (rewrite Rmult_minus_distr_r, (Rmult_assoc (IZR D)), TI; ring).
    rewrite Rabs_mult, (Rabs_pos_eq u) by lra. apply Rle_lt_trans with (t / 10 * u)%R.
    + apply Rmult_le_compat_r; [lra|]. apply Rabs_le. lra.
    + replace (t / 10 * u)%R with (/ 10 * (t * u))%R by field. rewrite TI. lra.
  - assert (DE : D = 100000).
    { destruct (Z.eq_dec D 100000) as [E|E]; [exact E|]. exfalso. assert (R3 : (100001 <= IZR D)%R) by (apply IZR_le; lia). rewrite TX in C. nra. }
    assert (TY : ten (X - 1) = (10000 * t)%R). { rewrite (ten_split (X - 1) 4). replace (X - 1 - 4) with (X - 5) by lia. fold t. replace (ten 4) with 10000%R by reflexivity. ring. }
    unfold d. rewrite DE in *. rewrite (round6_mag w (X - 1)); [|split; [rewrite TY; nra|replace (X - 1 + 1) with X by lia; exact C]].
    replace (5 - (X - 1)) with (6 - X) by lia. replace (X - 1 - 5) with (X - 6) by lia.
    assert (TI : (t * ten (6 - X) = 10)%R). { unfold t. rewrite <- bpow_plus. replace (X - 5 + (6 - X)) with 1 by lia. reflexivity. }
    pose proof (ten_pos (6 - X)) as U. set (u := ten (6 - X)) in *.
    assert (N : ZnearestE (w * u) = 1000000).
    { apply Znearest_imp. replace (w * u - 1000000)%R with ((w - 100000 * t) * u)%R by (rewrite Rmult_minus_distr_r, (Rmult_assoc 100000), TI; ring).
      rewrite Rabs_mult, (Rabs_pos_eq u) by lra. apply Rle_lt_trans with (t / 100 * u)%R.
      - apply Rmult_le_compat_r; [lra|]. apply Rabs_le. lra.
      - replace (t / 100 * u)%R with (/ 100 * (t * u))%R by field. rewrite TI. lra. }
    rewrite N. replace t with (ten (X - 6) * ten 1)%R by (unfold t; rewrite <- bpow_plus; f_equal; lia).
    replace (ten 1) with 10%R by reflexivity. ring.
Qed.
Lemma digits_unique D X D' X' : 100000 <= D < 1000000 -> 100000 <= D' < 1000000 ->
  (IZR D * ten (X - 5) = IZR D' * ten (X' - 5))%R -> D = D' /\ X = X'.
Proof.
  intros B B' E.
  assert (M : forall D X, 100000 <= D < 1000000 -> mag radix10 (IZR D * ten (X - 5)) = X + 1 :> Z).
  { clear. intros D X [B1 B2]. apply IZR_le in B1. apply IZR_lt in B2. apply mag_unique_pos. pose proof (ten_pos (X - 5)) as T.
    rewrite (ten_split (X + 1 - 1) 5), (ten_split (X + 1) 6). replace (X + 1 - 1 - 5) with (X - 5) by lia. replace (X + 1 - 6) with (X - 5) by lia.
    replace (ten 5) with 100000%R by reflexivity. replace (ten 6) with 1000000%R by reflexivity. split; nra. }
  pose proof (M D X B) as M1. pose proof (M D' X' B') as M2. rewrite E, M2 in M1. assert (X = X') by lia. subst X'. split; [|reflexivity].
  apply Rmult_eq_reg_r in E; [now apply eq_IZR|]. pose proof (ten_pos (X - 5)). lra.
Qed.
Lemma show_stable (x y : f64) : is_finite x = true -> reads_as x y -> show y = show x.
Proof.
  intros F (Fy & S & A). destruct x as [s| | |s m e B]; try discriminate F.
  - cbn [B2R] in A. replace (round6 0) with 0%R in A by (symmetry; unfold round6; apply round_0; apply valid_rnd_N).
    rewrite Rabs_R0, Rminus_0_r in A. assert (Z : B2R y = 0%R). { destruct (Req_dec (B2R y) 0) as [Q|Q]; [exact Q|]. apply Rabs_pos_lt in Q. lra. }
    destruct y as [s'| | |s' m' e' B']; try discriminate Fy; cbn [Bsign] in S; subst s'; [reflexivity|].
    rewrite B2R_finite in Z. pose proof (F2R_gt_0 radix2 (Float radix2 (Zpos m') e') eq_refl) as P. destruct s; lra.
  - destruct (dec6 m e) as [D X] eqn:E. destruct (dec6_spec m e D X B E) as (R1 & R2 & V). set (d := (IZR D * ten (X - 5))%R) in *.
    assert (DP : (0 < d)%R). { pose proof (ten_pos (X - 5)). assert (100000 <= IZR D)%R by (apply IZR_le; lia). unfold d. nra. }
    assert (AX : round6 (B2R (B754_finite s m e B : f64)) = (if s then - d else d)%R).
    { rewrite B2R_finite, V. destruct s; [apply round6_opp|reflexivity]. }
    rewrite AX in A. replace (Rabs (if s then (- d)%R else d)) with d in A by (destruct s; [rewrite Rabs_Ropp|]; rewrite Rabs_pos_eq; lra).
    destruct y as [s'| | |s' m' e' B']; try discriminate Fy; cbn [Bsign] in S; subst s'.
    { exfalso. cbn [B2R] in A. apply Rabs_le_inv in A. destruct s; lra. }
    rewrite B2R_finite in A. set (w := F2R (Float radix2 (Zpos m') e')) in *.
    assert (A' : (Rabs (w - d) <= d / 10000000)%R).
    { destruct s; [|exact A]. rewrite <- Rabs_Ropp. replace (- (w - d))%R with (- w - - d)%R by ring. exact A. }
    pose proof (round6_near D X w R1 A') as N. fold d in N.
    destruct (dec6 m' e') as [D' X'] eqn:E'. destruct (dec6_spec m' e' D' X' B' E') as (R1' & _ & V'). fold w in V'. rewrite N in V'. unfold d in V'.
    destruct (digits_unique _ _ _ _ R1' R1 V') as [-> ->]. cbn [show]. now rewrite E, E'.
Qed.
Lemma min_normal_bounded : SpecFloat.bounded 53 1024 4503599627370496 (-1074) = true. Proof. reflexivity. Qed.
Lemma min_normal_dec6 : dec6 4503599627370496 (-1074) = (222507, -308). Proof. vm_compute. reflexivity. Qed.
Lemma min_normal_value : F2R (Float radix2 4503599627370496 (-1074)) = bpow radix2 (-1022).
Proof. unfold F2R. cbn [Fnum Fexp]. change 4503599627370496 with (Zpower radix2 52). rewrite IZR_Zpower by lia. rewrite <- bpow_plus. reflexivity. Qed.
Lemma round6_abs x : Rabs (round6 x) = round6 (Rabs x).
Proof.
  assert (Z : round6 0 = 0%R) by (unfold round6; apply round_0; apply valid_rnd_N).
  destruct (Rle_lt_dec 0 x) as [P|P].
  - rewrite !Rabs_pos_eq; [reflexivity|exact P|]. rewrite <- Z. now apply round6_le.
  - rewrite (Rabs_left x) by exact P. rewrite round6_opp. apply Rabs_left1. rewrite <- Z. apply round6_le. lra.
Qed.
Lemma tiny_error : (/ 2 * bpow radix2 (-1074) <= IZR 222507 * ten (-313) / 20000000)%R.
Proof.
  assert (P : (0 < bpow radix2 1074)%R) by apply bpow_gt_0. assert (Q : (0 < ten 313)%R) by apply bpow_gt_0.
  change (-1074) with (- (1074)). change (-313) with (- (313)). rewrite !bpow_opp.
  apply (Rmult_le_reg_r (2 * 20000000 * bpow radix2 1074 * ten 313)). { apply Rmult_lt_0_compat; [|exact Q]. lra. }
  replace (/ 2 * / bpow radix2 1074 * (2 * 20000000 * bpow radix2 1074 * ten 313))%R with (20000000 * ten 313)%R by (field; lra).
  replace (222507 * / ten 313 / 20000000 * (2 * 20000000 * bpow radix2 1074 * ten 313))%R with (222507 * 2 * bpow radix2 1074)%R by (field; lra).
  rewrite <- (IZR_Zpower radix2), ten_pow, <- !mult_IZR by lia. apply IZR_le. vm_compute. discriminate.
Qed.
Lemma printed_reads x y : normal x -> as_printed x y -> reads_as x y.
Proof.
  intros [F N] (A1 & A2 & A3). split; [exact A1|]. split; [exact A2|]. rewrite A3. destruct N as [N|N].
  { rewrite N. replace (round6 0) with 0%R by (symmetry; unfold round6; apply round_0; apply valid_rnd_N). rewrite round64_0, Rminus_0_r, Rabs_R0. lra. }
  assert (DL : (IZR 222507 * ten (-313) <= Rabs (round6 (B2R x)))%R).
  { destruct (dec6_spec _ _ _ _ min_normal_bounded min_normal_dec6) as (_ & _ & V). change (-308 - 5) with (-313) in V. rewrite V, min_normal_value.
    rewrite round6_abs. now apply round6_le. }
  set (d := round6 (B2R x)) in *.
  destruct (error_N_FLT radix2 (-1074) 53 eq_refl (fun z => negb (Z.even z)) d) as (eps & eta & E1 & E2 & _ & E4).
  change (FLT_exp (-1074) 53) with fexp64 in E4. unfold round64. change (Znearest (fun z => negb (Z.even z))) with ZnearestE in E4.
  rewrite E4. replace (d * (1 + eps) + eta - d)%R with (d * eps + eta)%R by ring.
  eapply Rle_trans; [apply Rabs_triang|]. rewrite Rabs_mult. pose proof tiny_error as TE. pose proof (Rabs_pos d) as DP.
  assert (EPS : (Rabs eps <= / 20000000)%R).
  { eapply Rle_trans; [exact E1|]. replace (bpow radix2 (- (53) + 1)) with (/ IZR (radix2 ^ 52))%R by (rewrite (IZR_Zpower radix2) by lia; rewrite <- bpow_opp; reflexivity).
    assert (G : (IZR 10000000 <= IZR (radix2 ^ 52))%R) by (apply IZR_le; vm_compute; discriminate).
    assert (/ IZR (radix2 ^ 52) <= / 10000000)%R by (apply Rinv_le; lra). lra. }
  assert (Rabs d * Rabs eps <= Rabs d * / 20000000)%R by (apply Rmult_le_compat_l; lra).
  unfold Rdiv in *. lra.
Qed.
Lemma show_reread x y : normal x -> as_printed x y -> show y = show x.
Proof. intros N A. apply show_stable; [exact (proj1 N)|now apply printed_reads]. Qed.
