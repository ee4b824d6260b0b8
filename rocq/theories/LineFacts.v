(** * The lines on the console *)
From Coq Require Import Reals Lra String.
From Flocq Require Import Core.
From Verif Require Import ConsoleF XmlFacts.
From Verif Require Export SpecLine.
Open Scope Z_scope.
Open Scope list_scope.

Lemma dec_text z : dec z = text (showZ z).
Proof. unfold dec, showZ, digit_text. destruct (z <? 0); reflexivity. Qed.

Lemma round1_mag x X : (ten X <= x < ten (X + 1))%R -> round1 x = (IZR (ZnearestE (x * ten (- X))) * ten X)%R.
Proof.
  intros B. unfold round1, round, F2R, scaled_mantissa, cexp, FLX_exp. cbn [Fnum Fexp].
  rewrite (mag_unique_pos radix10 x (X + 1)) by (replace (X + 1 - 1) with X by lia; exact B).
  replace (X + 1 - 1) with X by lia. reflexivity.
Qed.
Lemma digit_range x X : (ten X <= x < ten (X + 1))%R -> 1 <= ZnearestE (x * ten (- X)) <= 10.
Proof.
  intros [B1 B2]. pose proof (ten_pos (- X)) as T.
  assert (L : (IZR 1 <= x * ten (- X))%R).
  { replace (IZR 1) with (ten X * ten (- X))%R. { apply Rmult_le_compat_r; lra. }
    rewrite <- bpow_plus. replace (X + - X) with 0 by lia. reflexivity. }
  assert (U : (x * ten (- X) <= IZR 10)%R).
  { replace (IZR 10) with (ten (X + 1) * ten (- X))%R. { apply Rmult_le_compat_r; lra. }
    rewrite <- bpow_plus. replace (X + 1 + - X) with 1 by lia. reflexivity. }
  split.
  - rewrite <- (Zrnd_IZR ZnearestE 1). apply Zrnd_le; [apply valid_rnd_N|exact L].
  - rewrite <- (Zrnd_IZR ZnearestE 10). apply Zrnd_le; [apply valid_rnd_N|exact U].
Qed.
Lemma dec1_spec m e D X : SpecFloat.bounded 53 1024 m e = true -> dec1 m e = (D, X) ->
  1 <= D <= 9 /\ (IZR D * ten X = round1 (F2R (Float radix2 (Zpos m) e)))%R.
Proof.
  intros B H. pose proof (bounded_range m e B) as [R1 R2]. pose proof tiny. pose proof huge.
  unfold dec1 in H. destruct (ratio m e) as [p q] eqn:ER. pose proof (ratio_value m e) as V. pose proof (ratio_pos m e) as [P Q].
  rewrite ER in V, P, Q. cbn [fst snd] in V, P, Q. set (x := F2R (Float radix2 (Zpos m) e)) in *.
  assert (XP : (0 < x)%R) by (pose proof (bpow_gt_0 radix2 (-1074)); lra).
  assert (M : (ten (mag radix10 x - 1) <= x < ten (mag radix10 x))%R).
  { destruct (mag radix10 x) as [k K]. cbn [mag_val]. rewrite Rabs_pos_eq in K by lra. apply K. lra. }
  assert (M1 : -400 < mag radix10 x). { apply (mag_gt_bpow radix10). rewrite Rabs_pos_eq by lra. lra. }
  assert (M2 : mag radix10 x <= 400). { apply (mag_le_bpow radix10). { lra. } rewrite Rabs_pos_eq by lra. lra. }
  assert (L : leading p q (exp10 p q) = true).
  { apply (exp10_leading p q (mag radix10 x - 1)); [|lia]. apply leading_spec; [exact Q|]. rewrite V.
    replace (mag radix10 x - 1 + 1) with (mag radix10 x : Z) by lia. exact M. }
  apply leading_spec in L; [|exact Q]. rewrite V in L. cbv zeta in H. set (Y := exp10 p q) in *.
  assert (QR : (0 < IZR q)%R) by now apply IZR_lt.
  assert (DE : (if Y <=? 0 then round_div (p * 10 ^ (- Y)) q else round_div p (q * 10 ^ Y)) = ZnearestE (x * ten (- Y))).
  { destruct (Z.leb_spec Y 0).
    - rewrite round_div_spec by exact Q. f_equal. rewrite mult_IZR, <- ten_pow by lia. rewrite <- V. field. lra.
    - assert (TQ : 0 < 10 ^ Y) by (apply Z.pow_pos_nonneg; lia).
      rewrite round_div_spec by (apply Z.mul_pos_pos; lia). f_equal. rewrite mult_IZR, <- ten_pow by lia. rewrite <- V.
      rewrite bpow_opp. pose proof (ten_pos Y). field. lra. }
  rewrite DE in H. pose proof (digit_range x Y L) as DR. pose proof (round1_mag x Y L) as RM.
  set (N := ZnearestE (x * ten (- Y))) in *. clearbody N. clearbody Y.
  destruct (Z.eqb_spec N 10) as [E|E]; injection H as <- <-.
  - split; [lia|]. rewrite RM, E. rewrite (bpow_plus radix10). replace (ten 1) with 10%R by reflexivity. ring.
  - split; [lia|]. rewrite RM. reflexivity.
Qed.
Lemma round1_opp x : round1 (- x) = (- round1 x)%R.
Proof. apply round_NE_opp. Qed.

Lemma digits_one D : 1 <= D <= 9 -> digits D = [D].
Proof. intros H. assert (D = 1 \/ D = 2 \/ D = 3 \/ D = 4 \/ D = 5 \/ D = 6 \/ D = 7 \/ D = 8 \/ D = 9) as K by lia. repeat (destruct K as [->|K]; [reflexivity|]). subst D. reflexivity. Qed.
Lemma one_digit_printG1 x : is_finite x = true -> one_digit x (printG1 x).
Proof.
  intros F. destruct x as [s|s| |s m e B]; try discriminate F; unfold one_digit, printG1.
  - exists [0], [], None. split. { repeat split; [congruence|repeat constructor; lia|constructor]. } split; [reflexivity|].
    split; [cbn; lia|]. cbn [B2R]. unfold round1. rewrite round_0 by apply valid_rnd_N. rewrite Rabs_R0. unfold value. cbn. ring.
  - destruct (dec1 m e) as [D X] eqn:E. destruct (dec1_spec m e D X B E) as (R & V).
    assert (AV : (Rabs (round1 (B2R (B754_finite s m e B))) = IZR D * ten X)%R).
    { assert (P0 : (0 <= IZR D * ten X)%R) by (apply Rmult_le_pos; [apply IZR_le; lia|pose proof (ten_pos X); lra]).
      rewrite B2R_finite. destruct s; [rewrite round1_opp, Rabs_Ropp|]; rewrite <- V; now apply Rabs_pos_eq. }
    rewrite AV. cbn [Bsign]. unfold digit_text. rewrite (digits_one D R).
    assert (DD : digit D) by (unfold digit; lia).
    destruct (andb (-4 <=? X) (X <? 1)) eqn:XB.
    + apply andb_true_iff in XB as [X1 X2]. apply Z.leb_le in X1. apply Z.ltb_lt in X2. destruct (Z.eqb_spec X 0) as [X0|X0].
      * exists [D], [], None. split. { split; [congruence|]. split; [constructor; [exact DD|constructor]|]. split; [constructor|exact I]. } split; [reflexivity|]. cbn [app].
        replace (value [D]) with D by (unfold value; cbn; lia). split; [lia|]. subst X. cbn [exponent List.length]. reflexivity.
      * exists [0], (repeat 0 (Z.to_nat (- X - 1)) ++ [D]), None.
        split. { split; [congruence|]. split; [repeat constructor; lia|]. split; [apply Forall_app; split; [apply repeat_digit|constructor; [exact DD|constructor]]|exact I]. }
        split. { f_equal. f_equal. rewrite spelled_point by (intros K; apply app_eq_nil in K as [_ K]; discriminate K). cbn [map app]. rewrite app_nil_r, map_app, zeros_digits. reflexivity. }
        assert (EV : value ([0] ++ repeat 0 (Z.to_nat (- X - 1)) ++ [D]) = D).
        { rewrite app_assoc. change ([0] ++ repeat 0 (Z.to_nat (- X - 1))) with (repeat 0 (S (Z.to_nat (- X - 1)))). rewrite value_zeros. unfold value; cbn; lia. }
        rewrite EV. split; [lia|]. f_equal. f_equal. cbn [exponent]. rewrite app_length, repeat_length. cbn [List.length]. lia.
    + set (es := repeat 0 (2 - List.length (digits (Z.abs X))) ++ digits (Z.abs X)).
      exists [D], [], (Some (X <? 0, es)).
      assert (EN : es <> []). { unfold es. intros K. apply app_eq_nil in K as [_ K]. revert K. apply digits_nonempty. lia. }
      split. { split; [congruence|]. split; [constructor; [exact DD|constructor]|]. split; [constructor|]. split; [exact EN|].
        unfold es. apply Forall_app. split; [apply repeat_digit|apply digits_Forall; lia]. }
      split. { f_equal. f_equal. unfold spelled, es. cbn [app map]. rewrite map_app, map_length, zeros_digits. reflexivity. }
      cbn [app]. replace (value [D]) with D by (unfold value; cbn; lia). split; [lia|]. f_equal. f_equal. cbn [exponent List.length].
      unfold es. rewrite value_zeros, digits_value by lia. destruct (Z.ltb_spec X 0); lia.
Qed.

Lemma line_report k dt t fin el re ave last f c : is_finite dt = true -> is_finite t = true -> is_finite fin = true -> is_finite ave = true -> is_finite last = true -> is_finite c = true ->
  progress_line k dt t fin el re ave last f c (coutText (@Report F64 k dt t fin el re ave last f c)).
Proof.
  intros H1 H2 H3 H4 H5 H6. exists (showZ k), (printG1 dt), (printF 3 t), (printF 1 fin), (printF 3 ave), (printF 3 last), (showZ f), (printF 2 c).
  cbn [coutText]. rewrite !dec_text. split; [reflexivity|]. split; [apply showZ_text|]. split; [now apply one_digit_printG1|].
  split; [apply decimals_printF; auto; lia|]. split; [apply decimals_printF; auto; lia|]. split; [apply decimals_printF; auto; lia|]. split; [apply decimals_printF; auto; lia|].
  split; [apply showZ_text|apply decimals_printF; auto; lia].
Qed.
Lemma text_length l : String.length (text l) = List.length l.
Proof. induction l as [|a l IH]; [reflexivity|]. cbn. unfold text in IH. now rewrite IH. Qed.
Lemma line_short k dt t fin el re ave last f c : is_finite t = true -> short_line k t (cerrText (@Report F64 k dt t fin el re ave last f c)).
Proof.
  intros H. exists (4 - List.length (showZ k))%nat, (showZ k), (printF 3 t). cbn [cerrText]. unfold setw. rewrite dec_text, text_length.
  split. { now rewrite text_app. } split; [apply showZ_text|]. split; [lia|]. apply decimals_printF; auto; lia.
Qed.
Lemma line_warning id x : warning_text id x (cerrText (@OutOfDomain F64 id x)).
Proof. exists (showZ id), (show (vx x)), (show (vy x)), (show (vz x)). cbn [cerrText]. rewrite dec_text. split; [reflexivity|]. split; [apply showZ_text|]. repeat split; apply show_text. Qed.
Lemma line_courant c : courant_text c (cerrText (@CourantError F64 c)).
Proof. exists (show c). split; [reflexivity|apply show_text]. Qed.
