(** * The total time in the log (C85) *)
From Coq Require Import String.
From Verif Require Import Types DecimalFacts LineFacts SpecMessages SpecWorkflow.
Open Scope list_scope.
Open Scope Z_scope.
#[local] Remove Hints Rnum : typeclass_instances.

Lemma after_text_app t l : after_text t (t ++ l) = Some l.
Proof. induction t as [|a t IH]; [reflexivity|]. cbn [app after_text]. now rewrite Ascii.eqb_refl. Qed.
Lemma after_text_some t : forall l r, after_text t l = Some r -> l = t ++ r.
Proof. induction t as [|a t IH]; intros l r H; [cbn in *; congruence|]. destruct l as [|b l]; cbn [after_text] in H; [discriminate|]. destruct (Ascii.eqb a b) eqn:E; [|discriminate]. apply Ascii.eqb_eq in E. subst b. cbn. f_equal. now apply IH. Qed.
Lemma number_at_app a c r : forallb is_digit a = true -> is_digit c = false -> number_at (a ++ c :: r) = (a, c :: r).
Proof. induction a as [|d a IH]; cbn [app number_at forallb]; intros H C; [now rewrite C|]. apply andb_true_iff in H as [-> H]. now rewrite (IH H C). Qed.
Lemma number_then_app a c t r : a <> [] -> forallb is_digit a = true -> is_digit c = false -> number_then (c :: t) (a ++ (c :: t) ++ r) = Some (a ++ c :: t, r).
Proof.
  intros N D C. unfold number_then. cbn [app]. rewrite (number_at_app _ _ _ D C). destruct a as [|d a]; [congruence|].
  change (c :: t ++ r) with ((c :: t) ++ r). now rewrite after_text_app.
Qed.
Lemma total_at_blank l t : total_at l = Some t -> exists r, l = lit "Total Simulation time = " ++ r.
Proof. unfold total_at. destruct (after_text total_label l) as [r|] eqn:E; [|discriminate]. intros _. exists r. now apply after_text_some in E. Qed.

(** no match begins in [a] *)
Definition quiet (a : list ascii) (b : list ascii) : Prop := forall x c y, a = x ++ c :: y -> total_at ((c :: y) ++ b) = None.
Lemma totals_quiet a b : quiet a b -> totals 0 (a ++ b) = totals 0 b.
Proof.
  induction a as [|c a IH]; intros Q; [reflexivity|]. cbn [app totals]. rewrite (Q [] c a eq_refl : total_at (c :: a ++ b) = None). apply IH.
  intros x d y ->. apply (Q (c :: x) d y). reflexivity.
Qed.
(** ... if there is no T in it *)
Lemma quiet_T a b : ~ In "T"%char a -> quiet a b.
Proof.
  intros H x c y ->. destruct (total_at ((c :: y) ++ b)) as [t|] eqn:E; [|reflexivity]. apply total_at_blank in E as (r & E). cbn in E. injection E as -> _. destruct H. apply in_or_app. right. now left.
Qed.
(** ... if there is no blank in it and then the line ends *)
Lemma quiet_blank a b : ~ In " "%char a -> quiet a (nl :: b).
Proof.
  intros H x c y ->. destruct (total_at ((c :: y) ++ nl :: b)) as [t|] eqn:E; [|reflexivity]. apply total_at_blank in E as (r & E). exfalso.
  assert (H' : ~ In " "%char (c :: y)) by (intros K; apply H, in_or_app; now right). clear H. set (z := c :: y) in *. clearbody z. cbn in E.
  do 6 (destruct z as [|? z]; [discriminate E|injection E as -> E]). apply H'. do 5 right. now left.
Qed.
Lemma quiet_app a b c : quiet a (b ++ c) -> quiet b c -> quiet (a ++ b) c.
Proof.
  intros A B x d y E. revert a A E. induction x as [|e x IH]; intros a A E.
  - destruct a as [|f a]; [apply (B [] d y); exact E|]. injection E as -> <-. specialize (A [] d a eq_refl). cbn [app] in A |- *. now rewrite <- app_assoc.
  - destruct a as [|f a]; [apply (B (e :: x) d y); exact E|]. injection E as -> E. apply (IH a); [|exact E]. intros x' d' y' ->. apply (A (e :: x') d' y'). reflexivity.
Qed.

(** ** The characters of numbers *)
Lemma lit_app a b : lit (a ++ b) = lit a ++ lit b.
Proof. induction a as [|c a IH]; [reflexivity|]. cbn. f_equal. exact IH. Qed.
Lemma lit_text l : lit (text l) = l.
Proof. apply list_ascii_of_string_of_list_ascii. Qed.

Definition no_T (l : list ascii) : bool := forallb (fun c => negb (Ascii.eqb c "T")) l.
Lemma no_T_In l : no_T l = true -> ~ In "T"%char l.
Proof. intros H K. unfold no_T in H. rewrite forallb_forall in H. specialize (H _ K). discriminate H. Qed.
Lemma no_T_app a b : no_T (a ++ b) = no_T a && no_T b.
Proof. apply forallb_app. Qed.
Lemma no_T_digits ds : Forall digit ds -> no_T (map digit_char ds) = true.
Proof.
  induction 1 as [|d ds D _ IH]; [reflexivity|]. cbn [map no_T forallb]. apply andb_true_iff. split; [|exact IH].
  apply negb_true_iff, Ascii.eqb_neq. intros E. apply (f_equal is_digit) in E. rewrite (is_digit_char d D) in E. discriminate E.
Qed.
Lemma no_T_digit_text z : 0 <= z -> no_T (digit_text z) = true.
Proof. intros H. apply no_T_digits, digits_Forall, H. Qed.
Lemma no_T_zeros n : no_T (zeros n) = true.
Proof. induction n as [|n IH]; [reflexivity|exact IH]. Qed.
Lemma no_T_sign s : no_T (sign_text s) = true. Proof. destruct s; reflexivity. Qed.
Lemma no_T_dec z : no_T (lit (dec z)) = true.
Proof.
  unfold dec. rewrite lit_text. destruct (Z.ltb_spec z 0); [|apply no_T_digit_text; lia]. cbn [no_T forallb]. apply (no_T_digit_text (- z)). lia.
Qed.
Lemma round_div_nonneg a b : 0 <= a -> 0 < b -> 0 <= round_div a b.
Proof. intros A B. unfold round_div. pose proof (Z.div_pos a b A B). destruct (_ ?= _); try lia. destruct (Z.even _); lia. Qed.
Lemma no_T_printF n x : no_T (lit (printF n x)) = true.
Proof.
  unfold printF. rewrite lit_text. destruct x as [s|s| |s m e B]; [|destruct s; reflexivity|reflexivity|].
  - rewrite no_T_app, no_T_sign. cbn [andb no_T forallb]. apply no_T_zeros.
  - destruct (ratio m e) as [p q] eqn:E. pose proof (ratio_pos m e) as [P Q]. rewrite E in P, Q. cbn [fst snd] in P, Q. cbv zeta.
    assert (T : 0 < 10 ^ Z.of_nat n) by (apply Z.pow_pos_nonneg; lia).
    assert (N : 0 <= round_div (p * 10 ^ Z.of_nat n) q) by (apply round_div_nonneg; nia).
    rewrite !no_T_app, no_T_sign, no_T_digit_text by (apply Z.div_pos; lia). cbn [andb no_T forallb]. fold (no_T).
    change (no_T (zeros (n - List.length (digit_text (round_div (p * 10 ^ Z.of_nat n) q mod 10 ^ Z.of_nat n))) ++ digit_text (round_div (p * 10 ^ Z.of_nat n) q mod 10 ^ Z.of_nat n)) = true).
    rewrite no_T_app, no_T_zeros, no_T_digit_text by (apply Z.mod_pos_bound; lia). reflexivity.
Qed.
Lemma no_T_printG1 x : no_T (lit (printG1 x)) = true.
Proof.
  unfold printG1. rewrite lit_text. destruct x as [s|s| |s m e B]; [destruct s; reflexivity|destruct s; reflexivity|reflexivity|].
  destruct (dec1 m e) as [D X] eqn:E. destruct (dec1_spec m e D X B E) as (R & _).
  assert (ND : no_T (digit_text D) = true) by (apply no_T_digit_text; lia).
  assert (NX : no_T (digit_text (Z.abs X)) = true) by (apply no_T_digit_text; lia).
  rewrite no_T_app, no_T_sign. cbn [andb]. destruct ((-4 <=? X) && (X <? 1)).
  - destruct (X =? 0); [exact ND|]. change (no_T (zeros (Z.to_nat (- X - 1)) ++ digit_text D) = true). now rewrite no_T_app, no_T_zeros, ND.
  - rewrite no_T_app, ND. cbn [andb]. cbv zeta.
    change (negb (Ascii.eqb (if X <? 0 then "-"%char else "+"%char) "T") && no_T (zeros (2 - List.length (digit_text (Z.abs X))) ++ digit_text (Z.abs X)) = true).
    rewrite no_T_app, no_T_zeros, NX. destruct (X <? 0); reflexivity.
Qed.
Lemma no_T_setw n z : no_T (lit (setw n "0" (dec z))) = true.
Proof. unfold setw. rewrite lit_app, lit_text, no_T_app, no_T_dec. change (repeat "0"%char (n - String.length (dec z))) with (zeros (n - String.length (dec z))). now rewrite no_T_zeros. Qed.
Lemma no_T_hms d : no_T (lit (calHourMinuteSecond d)) = true.
Proof. unfold calHourMinuteSecond. cbv zeta. rewrite !lit_app, !no_T_app, !no_T_dec, no_T_setw. reflexivity. Qed.

(** ** The total, where it is printed *)
Lemma dec_digits z : 0 <= z -> lit (dec z) <> [] /\ forallb is_digit (lit (dec z)) = true.
Proof.
  intros H. rewrite dec_nonneg, lit_text by exact H. split.
  - intros K. apply map_eq_nil in K. exact (digits_nonempty z H K).
  - pose proof (digits_Forall z H) as F. induction F as [|d ds D _ IH]; [reflexivity|]. cbn [map forallb]. rewrite (is_digit_char d D). exact IH.
Qed.
Lemma setw_digits n z : 0 <= z -> lit (setw n "0" (dec z)) <> [] /\ forallb is_digit (lit (setw n "0" (dec z))) = true.
Proof.
  intros H. destruct (dec_digits z H) as (N & D). unfold setw. rewrite lit_app, lit_text. split; [intros K; apply app_eq_nil in K as [_ K]; exact (N K)|].
  rewrite forallb_app, D, andb_true_r. induction (n - String.length (dec z))%nat as [|k IH]; [reflexivity|exact IH].
Qed.
Lemma dec_minus z r : z < 0 -> exists q, lit (dec z) ++ r = "-"%char :: q.
Proof. intros H. unfold dec. rewrite lit_text. destruct (Z.ltb_spec z 0); [|lia]. eexists. reflexivity. Qed.
Lemma number_minus t l : number_then t ("-"%char :: l) = None.
Proof. reflexivity. Qed.
Lemma app3 (a b c d e f r : list ascii) : (a ++ b ++ c ++ d ++ e ++ f) ++ r = a ++ b ++ c ++ d ++ e ++ f ++ r.
Proof. now rewrite <- !app_assoc. Qed.

(** the duration as printed at the end of a run: matched if it is not negative in any part *)
Lemma total_matched d r : - 1000000000 < d -> total_at (total_label ++ lit (calHourMinuteSecond d) ++ r) = Some (lit (calHourMinuteSecond d)).
Proof.
  intros H. unfold total_at. rewrite after_text_app. unfold calHourMinuteSecond. cbv zeta. set (h := Z.quot d 3600000000000). set (m := Z.quot (d - h * 3600000000000) 60000000000).
  set (s := Z.quot (d - h * 3600000000000 - m * 60000000000) 1000000000).
  assert (P : 0 <= h /\ 0 <= m /\ 0 <= s).
  { destruct (Z.le_gt_cases 0 d) as [Pd|Pd].
    - pose proof (Z.quot_pos d 3600000000000 Pd ltac:(lia)) as Hh. pose proof (Z.quot_rem' d 3600000000000) as Q1. pose proof (Z.rem_bound_pos d 3600000000000 Pd ltac:(lia)) as B1. fold h in Hh, Q1.
      assert (P1 : 0 <= d - h * 3600000000000) by lia. pose proof (Z.quot_pos _ 60000000000 P1 ltac:(lia)) as Hm. pose proof (Z.quot_rem' (d - h * 3600000000000) 60000000000) as Q2. pose proof (Z.rem_bound_pos _ 60000000000 P1 ltac:(lia)) as B2. fold m in Hm, Q2.
      assert (P2 : 0 <= d - h * 3600000000000 - m * 60000000000) by lia. pose proof (Z.quot_pos _ 1000000000 P2 ltac:(lia)) as Hs. fold s in Hs. lia.
    - assert (E0 : h = 0) by (unfold h; rewrite <- (Z.opp_involutive d), Z.quot_opp_l, Z.quot_small by lia; reflexivity).
      assert (E1 : m = 0) by (unfold m; rewrite E0; replace (d - 0 * 3600000000000) with (- (- d)) by lia; rewrite Z.quot_opp_l, Z.quot_small by lia; reflexivity).
      assert (E2 : s = 0) by (unfold s; rewrite E0, E1; replace (d - 0 * 3600000000000 - 0 * 60000000000) with (- (- d)) by lia; rewrite Z.quot_opp_l, Z.quot_small by lia; reflexivity). lia. }
  clearbody h m s. destruct P as (Ph & Pm & Ps). rewrite !lit_app.
  destruct (dec_digits h Ph) as (A1 & A2), (setw_digits 2 m Pm) as (B1 & B2), (dec_digits s Ps) as (C1 & C2). rewrite app3.
  change (lit "h ") with ("h"%char :: lit " "). rewrite number_then_app by auto.
  change (lit "m ") with ("m"%char :: lit " "). rewrite number_then_app by auto.
  change (lit "s") with ("s"%char :: lit ""). rewrite number_then_app by auto. f_equal. now rewrite <- !app_assoc.
Qed.
(** ... and not otherwise *)
Lemma rem_neg d b : d <= 0 -> 0 < b -> - b < Z.rem d b <= 0.
Proof. intros H B. pose proof (Z.rem_bound_pos (- d) b ltac:(lia) B) as R. rewrite Z.rem_opp_l in R by lia. lia. Qed.
Lemma total_unmatched d r : d <= - 1000000000 -> total_at (total_label ++ lit (calHourMinuteSecond d) ++ r) = None.
Proof.
  intros H. unfold total_at. rewrite after_text_app. unfold calHourMinuteSecond. cbv zeta. set (h := Z.quot d 3600000000000). set (m := Z.quot (d - h * 3600000000000) 60000000000).
  set (s := Z.quot (d - h * 3600000000000 - m * 60000000000) 1000000000).
  assert (Hm : m = Z.quot (d - h * 3600000000000) 60000000000) by reflexivity. assert (Hs : s = Z.quot (d - h * 3600000000000 - m * 60000000000) 1000000000) by reflexivity.
  rewrite !lit_app, app3.
  pose proof (Z.quot_rem' d 3600000000000) as Q1. pose proof (rem_neg d 3600000000000 ltac:(lia) ltac:(lia)) as B1. fold h in Q1.
  clearbody s. clearbody m. clearbody h. assert (Nh : h <= 0) by lia.
  destruct (Z.eq_dec h 0) as [E|E].
  2:{ destruct (dec_minus h (lit "h " ++ lit (setw 2 "0" (dec m)) ++ lit "m " ++ lit (dec s) ++ lit "s" ++ r) ltac:(lia)) as (q & ->). rewrite number_minus. reflexivity. }
  rewrite E in *. clear E. change (lit "h ") with ("h"%char :: lit " "). rewrite number_then_app; [|discriminate|reflexivity|reflexivity].
  pose proof (Z.quot_rem' d 60000000000) as Q2. pose proof (rem_neg d 60000000000 ltac:(lia) ltac:(lia)) as B2.
  assert (Em : m = Z.quot d 60000000000) by (rewrite Hm; f_equal; lia). rewrite <- Em in Q2. assert (Nm : m <= 0 /\ -60 < m) by lia.
  destruct (Z.eq_dec m 0) as [E|E].
  2:{ assert (LM : lit (setw 2 "0" (dec m)) = lit (dec m)).
      { unfold setw. replace (2 - String.length (dec m))%nat with O; [reflexivity|].
        unfold dec. destruct (Z.ltb_spec m 0); [|lia]. symmetry. apply Nat.sub_0_le.
        rewrite LineFacts.text_length. cbn [List.length]. rewrite map_length. pose proof (digits_nonempty (- m) ltac:(lia)) as K. destruct (digits (- m)); [congruence|]. cbn [List.length]. lia. }
      rewrite LM. destruct (dec_minus m (lit "m " ++ lit (dec s) ++ lit "s" ++ r) ltac:(lia)) as (q & ->). rewrite number_minus. reflexivity. }
  rewrite E in *. clear E. change (lit (setw 2 "0" (dec 0))) with (lit "00"). change (lit "m ") with ("m"%char :: lit " "). rewrite number_then_app; [|discriminate|reflexivity|reflexivity].
  pose proof (Z.quot_rem' d 1000000000) as Q3. pose proof (rem_neg d 1000000000 ltac:(lia) ltac:(lia)) as B3.
  assert (Es : s = Z.quot d 1000000000) by (rewrite Hs; f_equal; lia). rewrite <- Es in Q3.
  destruct (dec_minus s (lit "s" ++ r) ltac:(lia)) as (q & ->). rewrite number_minus. reflexivity.
Qed.

Lemma totals_skip a : forall b, totals (List.length a) (a ++ b) = totals 0 b.
Proof. induction a as [|c a IH]; intros b; [reflexivity|]. cbn [List.length app totals]. apply IH. Qed.
Lemma totals_end d : totals 0 (lit (coutText (@End F64 (calHourMinuteSecond d)))) = if - 1000000000 <? d then [lit (calHourMinuteSecond d)] else [].
Proof.
  cbn [coutText]. set (c := calHourMinuteSecond d). rewrite !lit_app.
  set (tl := lit newline ++ lit newline ++ lit "*** END SIMULATION ***" ++ lit newline). assert (TL : totals 0 tl = []) by (vm_compute; reflexivity).
  rewrite (totals_quiet (lit newline)) by (apply quiet_T; vm_compute; intuition discriminate). fold total_label.
  assert (NT : no_T (lit c) = true) by apply no_T_hms.
  destruct (Z.ltb_spec (- 1000000000) d) as [H|H].
  - pose proof (total_matched d tl H) as M. fold c in M. set (x := lit c) in *. clearbody x. clearbody tl.
    change total_label with ("T"%char :: lit "otal Simulation time = ") in M |- *. cbn [app] in M |- *. cbn [totals]. rewrite M. f_equal.
    change (List.length total_label + List.length x - 1)%nat with (List.length (lit "otal Simulation time = ") + List.length x)%nat || replace (List.length total_label + List.length x - 1)%nat with (List.length (lit "otal Simulation time = ") + List.length x)%nat by (change (List.length total_label) with (S (List.length (lit "otal Simulation time = "))); lia).
    rewrite <- app_length, app_assoc, totals_skip. exact TL.
  - pose proof (total_unmatched d tl H) as M. fold c in M. set (x := lit c) in *. clearbody x. clearbody tl.
    change total_label with ("T"%char :: lit "otal Simulation time = ") in M |- *. cbn [app] in M |- *. cbn [totals]. rewrite M.
    change ("o"%char :: "t"%char :: "a"%char :: "l"%char :: lit " Simulation time = " ++ x ++ tl) with (lit "otal Simulation time = " ++ x ++ tl) || idtac.
    match goal with |- totals 0 ?l = _ => change l with (lit "otal Simulation time = " ++ x ++ tl) end.
    rewrite totals_quiet by (apply quiet_T; vm_compute; intuition discriminate). rewrite totals_quiet by (apply quiet_T, no_T_In, NT). exact TL.
Qed.
Lemma quiet_report k dt t fin el re ave last f c b : no_T (lit el) = true -> no_T (lit re) = true -> quiet (lit (coutText (@Report F64 k dt t fin el re ave last f c))) b.
Proof.
  intros H1 H2. apply quiet_T, no_T_In. cbn [coutText]. rewrite !lit_app, !no_T_app, !no_T_dec, !no_T_printF, no_T_printG1, H1, H2. reflexivity.
Qed.
Lemma blank_free p : has_blank p = false -> ~ In " "%char (lit (path_text p)).
Proof.
  unfold path_text. rewrite lit_text. induction p as [|n p IH]; intros H K; [exact K|]. cbn [has_blank existsb] in H. apply orb_false_iff in H as [H1 H2].
  cbn [flat_map] in K. destruct K as [K|K]; [discriminate K|]. apply in_app_or in K as [K|K]; [|exact (IH H2 K)].
  assert (G : existsb is_blank n = true) by (apply existsb_exists; exists " "%char; split; [exact K|reflexivity]). congruence.
Qed.
Lemma totals_path a p b : no_T (lit a) = true -> has_blank p = false -> totals 0 (lit (a ++ path_text p ++ newline) ++ b) = totals 0 b.
Proof.
  intros A P. rewrite !lit_app, <- !app_assoc. rewrite (totals_quiet (lit a)) by (apply quiet_T, no_T_In, A). change (lit newline) with [nl]. cbn [app].
  rewrite totals_quiet by (apply quiet_blank, blank_free, P). change (nl :: b) with ([nl] ++ b). apply totals_quiet, quiet_T. cbn. intuition discriminate.
Qed.
Lemma quiet_nil b : quiet [] b.
Proof. intros x c y E. destruct x; discriminate E. Qed.

(** the texts of a step *)
Definition step_event (e : @event F64) : Prop :=
  (exists id x, e = OutOfDomain id x) \/ (exists c, e = CourantError c) \/
  exists k dt t fin a b ave last f c, e = Report k dt t fin ("elapsed=" ++ calHourMinuteSecond a) ("remain=" ++ calHourMinuteSecond b) ave last f c.
Lemma totals_steps what l b : Forall step_event l -> totals 0 (consoleText what (map Event l) ++ b) = totals 0 b.
Proof.
  intros F. induction F as [|e l E F IH]; [reflexivity|]. 
  change (consoleText what (map Event (e :: l))) with (lit (coutText e) ++ consoleText what (map Event l)). rewrite <- app_assoc, totals_quiet; [exact IH|].
  destruct E as [(id & x & ->)|[(c & ->)|(k & dt & t & fin & a' & b' & ave & last & f & c & ->)]]; [apply quiet_nil|apply quiet_nil|].
  apply quiet_report; rewrite lit_app, no_T_app, no_T_hms; reflexivity.
Qed.
Lemma printed_events (st0 : @sim F64) real c k m out w : printed st0 real c k m out w -> Forall step_event w.
Proof.
  intros (warns & T & W & _ & ->). apply Forall_app. split; [|apply Forall_app; split].
  - eapply Forall_impl; [|exact W]. intros e H. now left.
  - destruct (nlt _ _); [|constructor]. constructor; [|constructor]. right. left. eexists. reflexivity.
  - constructor; [|constructor]. right. right. do 10 eexists. reflexivity.
Qed.
Lemma concat_app_text what a b : consoleText what (a ++ b) = consoleText what a ++ consoleText what b.
Proof. unfold consoleText. now rewrite map_app, concat_app. Qed.

Lemma totals_start z : totals 0 (lit (coutText (@Start F64)) ++ z) = totals 0 z.
Proof. reflexivity. Qed.

(** the log of a completed run *)
Lemma totals_log what se o l d : has_blank se = false -> has_blank o = false -> Forall step_event l ->
  totals 0 (consoleText what (headers false se o ++ map Event (Start :: l ++ [End (calHourMinuteSecond d)]))) = if - 1000000000 <? d then [lit (calHourMinuteSecond d)] else [].
Proof.
  intros B1 B2 F. rewrite concat_app_text.
  assert (H : consoleText what (headers false se o) = lit ("Setting file: " ++ path_text se ++ newline) ++ lit ("Output directory: " ++ path_text o ++ newline)).
  { change (consoleText what (headers false se o)) with (lit ("Setting file: " ++ path_text se ++ newline) ++ lit ("Output directory: " ++ path_text o ++ newline) ++ []). now rewrite app_nil_r. }
  rewrite H, <- app_assoc. rewrite totals_path, totals_path by (reflexivity || assumption). change (Start :: l ++ [End (calHourMinuteSecond d)]) with ([Start] ++ l ++ [@End F64 (calHourMinuteSecond d)]).
  rewrite !map_app, !concat_app_text. change (consoleText what (map Event [Start])) with (lit (coutText (@Start F64)) ++ []). rewrite app_nil_r, totals_start, totals_steps by exact F.
  change (consoleText what (map Event [End (calHourMinuteSecond d)])) with (lit (coutText (@End F64 (calHourMinuteSecond d))) ++ []).
  rewrite app_nil_r. apply totals_end.
Qed.
