(** * The conversion script *)
From Coq Require Import Reals.
From Flocq Require Import Core.Generic_fmt Core.Raux.
From Verif Require Import CsvFacts XmlFacts GeneratorFiles SpecScripts.
Open Scope list_scope.
Open Scope Z_scope.
#[local] Remove Hints Rnum : typeclass_instances.

Lemma not_in_no c l : ~ In c l <-> no c l.
Proof.
  unfold no. rewrite Forall_forall. split.
  - intros H d Hd. apply Ascii.eqb_neq. intros ->. contradiction.
  - intros H K. apply H in K. rewrite Ascii.eqb_refl in K. discriminate.
Qed.
Lemma head_tail_line n w l : no nl w -> head_tail (S n) (w ++ nl :: l) = (w ++ nl :: fst (head_tail n l), snd (head_tail n l)).
Proof.
  induction 1 as [|c w H _ IH]; cbn [app].
  - cbn [head_tail]. rewrite Ascii.eqb_refl. now destruct (head_tail n l).
  - cbn [head_tail] in *. rewrite H, IH. reflexivity.
Qed.
Lemma head_tail_0 l : head_tail 0 l = ([], l).
Proof. now destruct l. Qed.
Lemma read_line w l : no nl w -> forall cur, read_lines cur (w ++ nl :: l) = (rev cur ++ w) :: read_lines [] l.
Proof.
  induction 1 as [|c w H _ IH]; intros cur; cbn [app read_lines].
  - rewrite Ascii.eqb_refl, app_nil_r. reflexivity.
  - rewrite H, IH. cbn [rev]. rewrite <- app_assoc. reflexivity.
Qed.
Lemma read_all ls : Forall (no nl) ls -> read_lines [] (lines_text ls) = ls.
Proof. induction 1 as [|l ls H _ IH]; [reflexivity|]. rewrite lines_text_cons, (read_line l _ H []). cbn [rev app]. now rewrite IH. Qed.

Lemma drop_repeat a l : drop_spaces (repeat sp a ++ l) = drop_spaces l.
Proof. induction a as [|a IH]; [reflexivity|]. exact IH. Qed.
Lemma drop_word w l : word_text w -> drop_spaces (w ++ l) = w ++ l.
Proof.
  intros (N & S & _). destruct w as [|c w]; [congruence|]. cbn [app drop_spaces]. destruct (Ascii.eqb_spec c sp) as [->|]; [|reflexivity]. destruct S. now left.
Qed.
Lemma word_rev w : word_text w -> word_text (rev w).
Proof.
  intros (N & S & L). split; [|split]; [|intros K; apply S; now apply in_rev|intros K; apply L; now apply in_rev].
  intros K. apply N. apply (f_equal (@rev ascii)) in K. rewrite rev_involutive in K. exact K.
Qed.
Lemma repeat_rev a : rev (repeat sp a) = repeat sp a.
Proof.
  induction a as [|a IH]; [reflexivity|]. cbn [repeat rev]. rewrite IH. clear IH. induction a as [|a IH]; [reflexivity|]. cbn [repeat app]. now rewrite IH.
Qed.
Lemma trim_word a w b : word_text w -> trim (repeat sp a ++ w ++ repeat sp b) = w.
Proof.
  intros W. unfold trim. rewrite !rev_app_distr, repeat_rev, <- app_assoc, drop_repeat, (drop_word _ _ (word_rev w W)).
  rewrite rev_app_distr, !rev_involutive, drop_repeat. pose proof (drop_word w [] W) as D. rewrite !app_nil_r in D. exact D.
Qed.
Lemma upto_word w l : word_text w -> upto_space (w ++ sp :: l) = (w, l).
Proof.
  intros (_ & S & _). apply not_in_no in S. induction S as [|c w H _ IH]; [reflexivity|]. cbn [app upto_space]. rewrite H, IH. reflexivity.
Qed.
Lemma laid_nonempty l ws : laid l ws -> ws <> [].
Proof. now destruct 1. Qed.
Lemma laid_read l ws : laid l ws -> forall n, List.length ws = S n -> read_words n l = ws.
Proof.
  induction 1 as [a b w W|a w l ws W L IH]; intros n E; cbn [List.length] in E.
  - injection E as <-. cbn [read_words]. now rewrite trim_word.
  - destruct n as [|n]; [apply laid_nonempty in L; destruct ws; [congruence|discriminate]|]. injection E as E.
    cbn [read_words]. rewrite drop_repeat, (drop_word w _ W), (upto_word w l W). now rewrite (IH n E).
Qed.
Lemma laid_nl l ws : laid l ws -> no nl l.
Proof.
  assert (R : forall a, no nl (repeat sp a)) by (intros a; apply not_in_no; intros K; apply repeat_spec in K; discriminate).
  induction 1 as [a b w (_ & _ & W)|a w l ws (_ & _ & W) L IH]; apply not_in_no in W; apply no_app; (split; [apply R|]); apply no_app; (split; [exact W|]); [apply R|].
  constructor; [reflexivity|exact IH].
Qed.
Lemma digit_09 c : is_digit c = (48 <=? N_of_ascii c)%N && (N_of_ascii c <=? 57)%N.
Proof. destruct c as [[] [] [] [] [] [] [] []]; reflexivity. Qed.
Lemma digits_numeral w : all_digits w = numeral w.
Proof.
  unfold all_digits, numeral. destruct w as [|c w]; [reflexivity|]. cbn [List.length Nat.eqb negb andb].
  generalize (c :: w). intros l. induction l as [|d l IH]; [reflexivity|]. cbn [forallb]. now rewrite IH, digit_09.
Qed.
Lemma commas_join l : commas l = join l.
Proof. induction l as [|a [|b l] IH]; [reflexivity|reflexivity|]. cbn [commas join] in *. now rewrite IH. Qed.

Lemma convert_rows lines rows : Forall2 laid lines rows -> Forall (fun r => List.length r = 7%nat) rows ->
  flat_map convert_line lines = lines_text (map join (filter numbered rows)).
Proof.
  induction 1 as [|l r lines rows L _ IH]; intros F; [reflexivity|]. inversion F as [|? ? E F']; subst. cbn [flat_map filter]. unfold convert_line at 1.
  rewrite (laid_read l r L 6 E), digits_numeral. change (numeral (hd [] r)) with (numbered r). rewrite (IH F').
  destruct (numbered r); [|reflexivity]. cbn [map]. rewrite lines_text_cons, commas_join, <- app_assoc. reflexivity.
Qed.
Lemma prof_converted tl cl lines rows : no nl tl -> no nl cl -> Forall2 laid lines rows -> Forall (fun r => List.length r = 7%nat) rows ->
  prof_to_csv (lines_text (tl :: cl :: lines)) = csv_text tl cl prof_columns (filter numbered rows).
Proof.
  intros T C L F. unfold prof_to_csv, csv_text. rewrite !lines_text_cons, (head_tail_line 1 tl _ T), (head_tail_line 0 cl _ C), head_tail_0. cbn [fst snd].
  rewrite read_all.
  - rewrite (convert_rows lines rows L F). rewrite <- !app_assoc. cbn [app]. rewrite <- !app_assoc. reflexivity.
  - clear F. induction L as [|l r lines rows L _ IH]; constructor; [exact (laid_nl l r L)|exact IH].
Qed.

(** ** files of the exporter *)
Definition particle_words (p : Files.particle) : list (list ascii) :=
  [showZ (p_type p); show (vx (p_pos p)); show (vy (p_pos p)); show (vz (p_pos p)); show (vx (p_vel p)); show (vy (p_vel p)); show (vz (p_vel p))].
Lemma numchar_word w : w <> [] -> Forall (fun c => numchar c = true) w -> word_text w.
Proof.
  intros N H. split; [exact N|]. split; [|apply not_in_no, no_nl, H]. rewrite Forall_forall in H. intros K. apply H in K. discriminate K.
Qed.
Lemma show_word (x : f64) : word_text (show x).
Proof. apply numchar_word; [apply show_nonempty|apply show_numchar]. Qed.
Lemma showZ_word z : word_text (showZ z).
Proof. apply numchar_word; [apply showZ_nonempty|apply showZ_numchar]. Qed.
Lemma laid_cons w l ws : word_text w -> laid l ws -> laid (w ++ sp :: l) (w :: ws).
Proof. exact (laid_more 0 w l ws). Qed.
Lemma laid_row p : laid (prof_row p) (particle_words p).
Proof.
  unfold prof_row, particle_words, show3. apply laid_cons; [apply showZ_word|].
  assert (E : forall a b c d e f : list ascii, (a ++ sp :: b ++ sp :: c) ++ sp :: d ++ sp :: e ++ sp :: f = a ++ sp :: b ++ sp :: c ++ sp :: d ++ sp :: e ++ sp :: f).
  { intros. rewrite <- !app_assoc. cbn [app]. rewrite <- !app_assoc. reflexivity. }
  rewrite E. repeat (apply laid_cons; [apply show_word|]).
  pose proof (laid_last 0 0 (show (vz (p_vel p))) (show_word _)) as H. cbn [repeat app] in H. rewrite app_nil_r in H. exact H.
Qed.
Lemma numbered_words p : 0 <= p_type p -> numbered (particle_words p) = true.
Proof.
  intros H. unfold numbered. cbn [hd particle_words]. rewrite <- digits_numeral. destruct (showZ_text (p_type p)) as (ds & N & D & -> & _).
  rewrite (proj2 (Z.ltb_ge _ _) H). cbn [sign_text app]. destruct ds as [|d ds]; [congruence|]. unfold all_digits. cbn [map].
  change (digit_char d :: map digit_char ds) with (map digit_char (d :: ds)). apply forallb_forall. intros c Hc. apply in_map_iff in Hc. destruct Hc as (x & <- & Hx).
  rewrite Forall_forall in D. apply is_digit_char, D, Hx.
Qed.
Lemma all_numbered (ps : list Files.particle) : Forall (fun p => 0 <= p_type p) ps -> filter numbered (map particle_words ps) = map particle_words ps.
Proof. induction 1 as [|p ps H _ IH]; [reflexivity|]. cbn [map filter]. now rewrite (numbered_words p H), IH. Qed.
Lemma toProf_converted t ps : Forall (fun p => 0 <= p_type p) ps ->
  prof_to_csv (toProf t ps) = csv_text (show t) (showZ (Z.of_nat (List.length ps))) prof_columns (map particle_words ps).
Proof.
  intros H. unfold toProf. rewrite (prof_converted _ _ _ (map particle_words ps)); [now rewrite all_numbered|apply show_no_nl|apply showZ_no_nl| |].
  - clear H. induction ps as [|p ps IH]; constructor; [apply laid_row|exact IH].
  - clear H. induction ps as [|p ps IH]; constructor; [reflexivity|exact IH].
Qed.

Lemma printed_unique (x y z : f64) : as_printed x y -> as_printed x z -> y = z.
Proof.
  intros (F1 & S1 & V1) (F2 & S2 & V2). apply B2R_Bsign_inj; [exact F1|exact F2|congruence|congruence].
Qed.
Lemma printed_unique3 v u w : rel3 as_printed v u -> rel3 as_printed v w -> u = w.
Proof.
  intros (A & B & C) (A' & B' & C'). destruct u, w. cbn in *. f_equal; eapply printed_unique; eassumption.
Qed.
Lemma column_pos {A} (conv : list ascii -> option A) r name a i : NoDup prof_columns -> List.length r = 7%nat ->
  nth_error prof_columns i = Some (lit name) -> column conv prof_columns r name a -> exists c, nth_error r i = Some c /\ conv c = Some a.
Proof.
  intros ND L Hi (c & Hc & E). exists c. split; [|exact E]. apply In_nth_error in Hc. destruct Hc as [j Hj].
  assert (N : forall (h r : list (list ascii)) k a b, nth_error (combine h r) k = Some (a, b) -> nth_error h k = Some a /\ nth_error r k = Some b).
  { induction h as [|x h IH]; intros r0 [|k] a0 b0 H; cbn in H; try discriminate; destruct r0 as [|y r0]; try discriminate H; [injection H as -> ->; auto|]. now apply IH in H. }
  apply N in Hj. destruct Hj as [H1 H2]. rewrite (proj1 (NoDup_nth_error _) ND j i) in H2; [exact H2|now apply nth_error_Some; rewrite H1|congruence].
Qed.
Lemma prof_columns_ok : header_ok prof_columns.
Proof.
  split; [|split].
  - repeat (constructor; [cbn; intuition discriminate|]). constructor.
  - intros a H. cbn in H |- *. intuition.
  - intros a H. exact H.
Qed.

Section Same.
Variable cell_int : list ascii -> option Z.
Variable cell_dbl : list ascii -> option f64.
Hypothesis ints : forall z, in_int z = true -> cell_int (showZ z) = Some z.
Hypothesis dbls : forall x, finite x -> exists y, cell_dbl (show x) = Some y /\ as_printed x y.

Lemma words_plain p : Forall SpecFiles.plain (particle_words p).
Proof.
  assert (P : forall w, Forall (fun c => numchar c = true) w -> SpecFiles.plain w) by (intros w H; split; apply not_in_no; [now apply no_comma|now apply no_nl]).
  unfold particle_words. constructor; [apply P, showZ_numchar|]. repeat (constructor; [apply P, show_numchar|]). constructor.
Qed.
Lemma words_ok p : writable p -> row_ok cell_int cell_dbl prof_columns (particle_words p).
Proof.
  intros (T & _ & (X & Y & Z) & (U & V & W)). split; [reflexivity|]. split; [apply words_plain|].
  assert (D : forall x, finite x -> cell_dbl (show x) <> None) by (intros x Hx; destruct (dbls x Hx) as (y & -> & _); discriminate).
  intros name c H. cbn [prof_columns particle_words combine map] in H.
  destruct H as [H|[H|[H|[H|[H|[H|[H|[]]]]]]]]; injection H as <- <-; (split; intros K; [try (exfalso; cbn in K; intuition discriminate)|try (exfalso; cbn in K; intuition discriminate)]); auto.
  rewrite (ints _ T). discriminate.
Qed.
Lemma script_same dbg rho t ps : time_like t -> Forall writable ps -> Forall (fun p => 0 <= p_type p) ps -> Z.of_nat (List.length ps) <= int_max ->
  exists t' ps', prof_load dbg rho (toProf t ps) = Ok (t', ps') /\ csv_load cell_int cell_dbl dbg rho (prof_to_csv (toProf t ps)) = Ok (t', ps') /\
    as_printed t t' /\ restored as_printed (fun _ d => d = rho) (fun _ => 0) ps ps'.
Proof.
  intros T W P L. destruct (prof_round_trip dbg rho t ps (proj1 T) W L) as (t' & ps' & E & A & RS). exists t', ps'. split; [exact E|]. split; [|exact (conj A RS)].
  rewrite (toProf_converted t ps P). destruct (stod_show t T) as (t2 & E2 & A2). destruct (stod_count (Z.of_nat (List.length ps)) ltac:(lia)) as (y & Ey).
  destruct (csv_general cell_int cell_dbl dbg rho _ _ t2 y prof_columns (map particle_words ps) (show_no_nl t) (showZ_no_nl _) E2 Ey prof_columns_ok) as (qs & Eq & Lq & M).
  { apply Forall_map. eapply Forall_impl; [|exact W]. intros p Hp. exact (words_ok p Hp). }
  rewrite Eq. f_equal. f_equal; [exact (printed_unique t t2 t' A2 A)|]. apply nth_error_ext_eq. intros i. destruct RS as [Ln RS].
  rewrite map_length in Lq.
  destruct (nth_error ps i) as [p|] eqn:Hp.
  - destruct (RS i p Hp) as (pos & vel & d & Hq & R1 & R2 & ->). rewrite Hq.
    destruct (M i (particle_words p)) as (q & Hq2 & ty & x & y' & z & u & v & w & d & f & -> & C1 & C2 & C3 & C4 & C5 & C6 & C7 & CF & CD).
    { now apply map_nth_error. }
    rewrite Hq2. f_equal. rewrite Forall_forall in W. destruct (W p (nth_error_In _ _ Hp)) as (T1 & _ & (X & Y & Z) & (U & V & W1)).
    pose proof (proj1 prof_columns_ok) as ND.
    apply (column_pos _ (particle_words p) "type"%string _ 0 ND eq_refl eq_refl) in C1. destruct C1 as (c & H & G). injection H as <-. rewrite (ints _ T1) in G. injection G as <-.
    assert (DB : forall x y, finite x -> cell_dbl (show x) = Some y -> as_printed x y) by (intros a b Fa Ha; destruct (dbls a Fa) as (b' & Hb & Pb); congruence).
    apply (column_pos _ (particle_words p) "x"%string _ 1 ND eq_refl eq_refl) in C2. destruct C2 as (c & H & G2). injection H as <-. apply (DB _ _ X) in G2.
    apply (column_pos _ (particle_words p) "y"%string _ 2 ND eq_refl eq_refl) in C3. destruct C3 as (c & H & G3). injection H as <-. apply (DB _ _ Y) in G3.
    apply (column_pos _ (particle_words p) "z"%string _ 3 ND eq_refl eq_refl) in C4. destruct C4 as (c & H & G4). injection H as <-. apply (DB _ _ Z) in G4.
    apply (column_pos _ (particle_words p) "vx"%string _ 4 ND eq_refl eq_refl) in C5. destruct C5 as (c & H & G5). injection H as <-. apply (DB _ _ U) in G5.
    apply (column_pos _ (particle_words p) "vy"%string _ 5 ND eq_refl eq_refl) in C6. destruct C6 as (c & H & G6). injection H as <-. apply (DB _ _ V) in G6.
    apply (column_pos _ (particle_words p) "vz"%string _ 6 ND eq_refl eq_refl) in C7. destruct C7 as (c & H & G7). injection H as <-. apply (DB _ _ W1) in G7.
    assert (f = 0) as -> by (destruct CF as [[K _]|[_ K]]; [exfalso; cbn in K; intuition discriminate|exact K]).
    assert (d = rho) as -> by (destruct CD as [[K _]|[_ K]]; [exfalso; cbn in K; intuition discriminate|exact K]).
    f_equal; [apply (printed_unique3 (p_pos p)); [exact (conj G2 (conj G3 G4))|exact R1]|apply (printed_unique3 (p_vel p)); [exact (conj G5 (conj G6 G7))|exact R2]].
  - apply nth_error_None in Hp. transitivity (@None Files.particle); [|symmetry]; apply nth_error_None; lia.
Qed.
End Same.
