(** * The ASCII VTU round trip, and the refusal of binary VTU *)
From Coq Require Import Reals Lra PeanoNat.
From Verif Require Export FilesFacts.
Open Scope Z_scope.

(** ** substrings *)
Definition absent (c : ascii) (p : list ascii) : bool := forallb (fun d => negb (Ascii.eqb d c)) p.
Lemma prefix_split c b : forall p a, absent c p = true -> Files.prefix p (a ++ c :: b) = Files.prefix p a.
Proof.
  induction p as [|d p IH]; intros a H; [reflexivity|]. cbn [absent forallb] in H. apply andb_true_iff in H. destruct H as [H1 H2].
  destruct a as [|x a]; cbn [app Files.prefix].
  - apply negb_true_iff in H1. now rewrite H1.
  - fold (absent c p) in H2. now rewrite IH.
Qed.
Lemma contains_split c p b : forall a, absent c p = true -> contains p (a ++ c :: b) = contains p a || contains p b.
Proof.
  induction a as [|x a IH]; intros H.
  - cbn [app contains]. pose proof (prefix_split c b p [] H) as K. cbn [app] in K. rewrite K. destruct p as [|d p]; [reflexivity|]. cbn [Files.prefix contains orb]. reflexivity.
  - pose proof (prefix_split c b p (x :: a) H) as K. cbn [app contains] in *. rewrite K, IH by exact H. now rewrite orb_assoc.
Qed.
Lemma contains_first c p : forall l, no c l -> contains (c :: p) l = false.
Proof.
  induction l as [|d l IH]; intros N; [reflexivity|]. inversion_clear N. cbn [contains Files.prefix].
  rewrite Ascii.eqb_sym, H. cbn [andb orb]. now apply IH.
Qed.
Lemma contains_quoted p a l b : absent quote p = true -> contains p (a ++ quoted l ++ b) = contains p a || contains p l || contains p b.
Proof.
  intros H. unfold quoted. cbn [app]. rewrite contains_split by exact H. rewrite <- app_assoc. cbn [app]. rewrite contains_split by exact H.
  apply orb_assoc.
Qed.

Lemma no_b c l : absent c l = true -> no c l.
Proof. unfold absent, no. rewrite forallb_forall, Forall_forall. intros H d I. apply negb_true_iff. auto. Qed.
Ltac closed_no := apply no_b; vm_compute; reflexivity.

(** no keyword, and no newline: a line the loader passes over *)
Definition keywords : list (list ascii) := map lit ["Time"; "Position"; "Velocity"; "Particle Type"; "Fluid Type"; "Density"]%string.
Definition boring (l : list ascii) : Prop := forallb (fun k => negb (contains k l)) keywords = true.
Lemma boring_kw l : boring l -> contains (lit "Time") l = false /\ contains (lit "Position") l = false /\ contains (lit "Velocity") l = false
  /\ contains (lit "Particle Type") l = false /\ contains (lit "Fluid Type") l = false /\ contains (lit "Density") l = false.
Proof.
  unfold boring, keywords. cbn [map forallb]. rewrite !andb_true_iff, !negb_true_iff. tauto.
Qed.
(** characters of data rows: those of numbers and blanks *)
Definition rowchar (c : ascii) : bool := numchar c || Ascii.eqb c sp.
Definition row (l : list ascii) : Prop := Forall (fun c => rowchar c = true) l.
Lemma rowchar_not c d : rowchar c = true -> rowchar d = false -> Ascii.eqb c d = false.
Proof. intros H K. destruct (Ascii.eqb_spec c d) as [->|N]; [congruence|reflexivity]. Qed.
Lemma row_no d l : rowchar d = false -> row l -> no d l.
Proof. intros K H. apply (Forall_impl _ (fun c Hc => rowchar_not c d Hc K) H). Qed.
Lemma row_boring l : row l -> boring l.
Proof.
  intros H. unfold boring, keywords. cbn [map forallb]. rewrite !andb_true_iff, !negb_true_iff.
  repeat split; apply contains_first; (apply row_no; [reflexivity|exact H]).
Qed.
Lemma row_end l : row l -> contains (lit "</DataArray>") l = false.
Proof. intros H. apply contains_first. apply row_no; [reflexivity|exact H]. Qed.
Lemma row_bin l : row l -> contains (lit "<AppendedData") l = false.
Proof. intros H. apply contains_first. apply row_no; [reflexivity|exact H]. Qed.
Lemma row_nl l : row l -> no nl l.
Proof. intros H. apply row_no; [reflexivity|exact H]. Qed.
Lemma numchar_row l : Forall (fun c => numchar c = true) l -> row l.
Proof. apply Forall_impl. intros c H. unfold rowchar. now rewrite H. Qed.
Lemma show_row x : row (show x). Proof. apply numchar_row, show_numchar. Qed.
Lemma showZ_row z : row (showZ z). Proof. apply numchar_row, showZ_numchar. Qed.
Lemma show3_row v : row (show3 sp v).
Proof. unfold row, show3. apply Forall_app. split; [apply show_row|]. constructor; [reflexivity|]. apply Forall_app. split; [apply show_row|]. constructor; [reflexivity|apply show_row]. Qed.

(** ** getline over lines *)
Lemma upto_nl_line l r : no nl l -> upto_nl (l ++ nl :: r) = (l, true, r).
Proof.
  induction l as [|c l IH]; intros N; cbn [app upto_nl]. { reflexivity. }
  inversion_clear N. rewrite H, IH by assumption. reflexivity.
Qed.
Notation inl ls := (mkIn (lines_text ls) false).
Lemma getline_cons l ls old : no nl l -> getline (inl (l :: ls)) old = (true, inl ls, l).
Proof.
  intros N. unfold getline. cbn [in_eof in_rest]. rewrite lines_text_cons. pose proof (upto_nl_line l (lines_text ls) N) as K.
  destruct (l ++ nl :: lines_text ls) as [|c r] eqn:E; [now destruct l|]. rewrite K. reflexivity.
Qed.
Lemma getline_nil old : getline (inl []) old = (false, mkIn [] true, []).
Proof. reflexivity. Qed.

Lemma block_rows {A} (rd : list ascii -> outcome A) ls : forall rows vs fuel old acc,
  Forall row rows -> Forall2 (fun r a => rd r = Ok a) rows vs -> (List.length rows < fuel)%nat ->
  block rd fuel (inl (rows ++ dataArrayEnd :: ls)) old acc = Ok (acc ++ vs, inl ls, dataArrayEnd).
Proof.
  induction rows as [|r rows IH]; intros vs fuel old acc W F L; (destruct fuel as [|fuel]; [cbn [List.length] in L; lia|]).
  - inversion_clear F. cbn [app block]. rewrite getline_cons by (repeat constructor). change (contains (lit "</DataArray>") dataArrayEnd) with true.
    cbn [andb negb]. now rewrite app_nil_r.
  - inversion_clear W as [|? ? W1 W2]. inversion F as [|? a ? vs' F1 F2]; subst. cbn [app block]. rewrite getline_cons by (now apply row_nl).
    rewrite row_end by exact W1. cbn [andb negb]. rewrite F1. cbn [bind]. rewrite (IH vs' fuel) by (auto; cbn [List.length] in L; lia).
    now rewrite <- app_assoc.
Qed.

(** [vtu_loop] on the lines [ls] from the state [v], with enough fuel, gives [r] *)
Definition loops (ls : list (list ascii)) (v : vtu) (r : outcome vtu) : Prop :=
  forall old fuel, (List.length ls < fuel)%nat -> vtu_loop fuel (inl ls) old v = r.
Lemma loops_nil v : loops [] v (Ok v).
Proof. intros old fuel L. destruct fuel; [cbn in L; lia|]. reflexivity. Qed.
Lemma body_boring fuel i l v : boring l -> vtu_body fuel i l v = Ok (i, l, v).
Proof. intros B. destruct (boring_kw l B) as (K1 & K2 & K3 & K4 & K5 & K6). unfold vtu_body. rewrite K1. cbn [bind]. rewrite K2. cbn [bind]. rewrite K3. cbn [bind]. rewrite K4. cbn [bind]. rewrite K5. cbn [bind]. rewrite K6. reflexivity. Qed.
Lemma loops_boring l ls v r : no nl l -> boring l -> loops ls v r -> loops (l :: ls) v r.
Proof.
  intros N B H old fuel L. destruct fuel as [|fuel]; [cbn in L; lia|]. cbn [vtu_loop]. rewrite getline_cons by exact N.
  rewrite body_boring by exact B. cbn [bind]. apply H. cbn [List.length] in L. lia.
Qed.
Lemma loops_rows rows ls v r : Forall row rows -> loops ls v r -> loops (rows ++ ls) v r.
Proof. induction 1 as [|l rows R _ IH]; intros H; cbn [app]; [exact H|]. apply loops_boring; auto using row_nl, row_boring. Qed.
Lemma loops_step l ls ls' v v' line' r : no nl l -> (List.length ls' <= List.length ls)%nat ->
  (forall fuel, (List.length ls < fuel)%nat -> vtu_body fuel (inl ls) l v = Ok (inl ls', line', v')) ->
  loops ls' v' r -> loops (l :: ls) v r.
Proof.
  intros N LE B H old fuel L. destruct fuel as [|fuel]; [cbn in L; lia|]. cbn [vtu_loop]. rewrite getline_cons by exact N.
  cbn [List.length] in L. rewrite B by lia. cbn [bind]. apply H. lia.
Qed.
Definition end_boring : boring dataArrayEnd := eq_refl.

Ltac kw := match goal with |- context [contains (lit ?s) ?l] => let b := eval vm_compute in (contains (lit s) l) in change (contains (lit s) l) with b end; cbv iota; cbn [bind].
Lemma array_app ty name nc rows ls : ascii_array ty name nc rows ++ ls = dataArrayBegin ty name nc None :: (rows ++ dataArrayEnd :: ls).
Proof. unfold ascii_array. cbn [app]. rewrite <- app_assoc. reflexivity. Qed.
Lemma array_length rows ls : (List.length (ls : list (list ascii)) <= List.length (rows ++ dataArrayEnd :: ls))%nat.
Proof. rewrite app_length. cbn [List.length]. lia. Qed.
Lemma array_fuel rows ls fuel : (List.length (rows ++ dataArrayEnd :: (ls : list (list ascii))) < fuel)%nat -> (List.length rows < fuel)%nat.
Proof. rewrite app_length. cbn [List.length]. lia. Qed.
Lemma loops_position rows vs ls v r : Forall row rows -> Forall2 (fun l a => line3 l = Ok a) rows vs ->
  loops ls (mkVtu (v_time v) (v_pos v ++ vs) (v_vel v) (v_types v) (v_ftypes v) (v_dens v)) r ->
  loops (ascii_array "Float64" "Position" 3 rows ++ ls) v r.
Proof.
  intros W F H. rewrite array_app. eapply loops_step; [repeat constructor|apply array_length| |exact H]. intros fuel L. apply array_fuel in L.
  unfold vtu_body. kw. kw. rewrite (block_rows line3 ls rows vs fuel) by assumption. cbn [bind]. kw. kw. kw. kw. reflexivity.
Qed.
Lemma loops_velocity rows vs ls v r : Forall row rows -> Forall2 (fun l a => line3 l = Ok a) rows vs ->
  loops ls (mkVtu (v_time v) (v_pos v) (v_vel v ++ vs) (v_types v) (v_ftypes v) (v_dens v)) r ->
  loops (ascii_array "Float64" "Velocity" 3 rows ++ ls) v r.
Proof.
  intros W F H. rewrite array_app. eapply loops_step; [repeat constructor|apply array_length| |exact H]. intros fuel L. apply array_fuel in L.
  unfold vtu_body. kw. kw. kw. rewrite (block_rows line3 ls rows vs fuel) by assumption. cbn [bind]. kw. kw. kw. reflexivity.
Qed.
Lemma loops_type rows vs ls v r : Forall row rows -> Forall2 (fun l a => line1 get_int l = Ok a) rows vs ->
  loops ls (mkVtu (v_time v) (v_pos v) (v_vel v) (v_types v ++ vs) (v_ftypes v) (v_dens v)) r ->
  loops (ascii_array "Int32" "Particle Type" 1 rows ++ ls) v r.
Proof.
  intros W F H. rewrite array_app. eapply loops_step; [repeat constructor|apply array_length| |exact H]. intros fuel L. apply array_fuel in L.
  unfold vtu_body. kw. kw. kw. kw. rewrite (block_rows (line1 get_int) ls rows vs fuel) by assumption. cbn [bind]. kw. kw. reflexivity.
Qed.
Lemma loops_ftype rows vs ls v r : Forall row rows -> Forall2 (fun l a => line1 get_int l = Ok a) rows vs ->
  loops ls (mkVtu (v_time v) (v_pos v) (v_vel v) (v_types v) (v_ftypes v ++ vs) (v_dens v)) r ->
  loops (ascii_array "Int32" "Fluid Type" 1 rows ++ ls) v r.
Proof.
  intros W F H. rewrite array_app. eapply loops_step; [repeat constructor|apply array_length| |exact H]. intros fuel L. apply array_fuel in L.
  unfold vtu_body. kw. kw. kw. kw. kw. rewrite (block_rows (line1 get_int) ls rows vs fuel) by assumption. cbn [bind]. kw. reflexivity.
Qed.
Lemma loops_density name rows vs ls v r : name = "Number Density"%string \/ name = "Number Density Ratio"%string ->
  Forall row rows -> Forall2 (fun l a => line1 get_double l = Ok a) rows vs ->
  loops ls (mkVtu (v_time v) (v_pos v) (v_vel v) (v_types v) (v_ftypes v) (v_dens v ++ vs)) r ->
  loops (ascii_array "Float64" name 1 rows ++ ls) v r.
Proof.
  intros [-> | ->] W F H; rewrite array_app; (eapply loops_step; [repeat constructor|apply array_length| |exact H]); intros fuel L; apply array_fuel in L;
  unfold vtu_body; kw; kw; kw; kw; kw; kw; rewrite (block_rows (line1 get_double) ls rows vs fuel) by assumption; cbn [bind]; reflexivity.
Qed.
Lemma loops_skip ty name nc rows ls v r : no nl (dataArrayBegin ty name nc None) -> boring (dataArrayBegin ty name nc None) -> Forall row rows ->
  loops ls v r -> loops (ascii_array ty name nc rows ++ ls) v r.
Proof.
  intros N B W H. rewrite array_app. apply loops_boring; [exact N|exact B|]. apply loops_rows; [exact W|]. apply loops_boring; [repeat constructor|reflexivity|exact H].
Qed.
Lemma loops_time t t' ls v r : stod (show t) = Ok t' ->
  loops ls (mkVtu t' (v_pos v) (v_vel v) (v_types v) (v_ftypes v) (v_dens v)) r ->
  loops ((lit "<DataArray type=" ++ quoted (lit "Float64") ++ lit " Name=" ++ quoted (lit "Time")
        ++ lit " NumberOfTuples=" ++ quoted (lit "1") ++ lit " format=" ++ quoted (lit "ascii") ++ lit ">") :: show t :: ls) v r.
Proof.
  intros E H. eapply loops_step; [repeat constructor| | |exact H]; [cbn [List.length]; lia|]. intros fuel L. unfold vtu_body. kw.
  rewrite getline_cons by apply show_no_nl. rewrite E. cbn [bind]. destruct (boring_kw _ (row_boring _ (show_row t))) as (K1 & K2 & K3 & K4 & K5 & K6).
  rewrite K2. cbn [bind]. rewrite K3. cbn [bind]. rewrite K4. cbn [bind]. rewrite K5. cbn [bind]. rewrite K6. reflexivity.
Qed.

(** ** rows of data, read back *)
Lemma line3_show v : all3 finite v -> exists w, line3 (show3 sp v) = Ok w /\ rel3 as_printed v w.
Proof.
  intros F. destruct (extract3_show [] v [] ltac:(constructor) F I) as (w & E & A). exists w. split; [|exact A].
  unfold line3. cbn [app] in E. rewrite app_nil_r in E. rewrite E. cbn [st_fail stored3 stored bind]. now destruct w.
Qed.
Lemma line1_show x : finite x -> exists y, line1 get_double (show x) = Ok y /\ as_printed x y.
Proof.
  intros F. destruct (extract_double [] x [] ltac:(constructor) F I) as (y & E & A). exists y. split; [|exact A].
  unfold line1. cbn [app] in E. rewrite app_nil_r in E. rewrite E. reflexivity.
Qed.
Lemma line1_showZ z : in_int z = true -> line1 get_int (showZ z) = Ok z.
Proof.
  intros J. pose proof (extract_int [] z [] ltac:(constructor) J I) as E. unfold line1. cbn [app] in E. rewrite app_nil_r in E. now rewrite E.
Qed.
Lemma rows_read {A} (rd : list ascii -> outcome A) (f : particle -> list ascii) (R : particle -> A -> Prop) ps :
  Forall (fun p => exists a, rd (f p) = Ok a /\ R p a) ps ->
  exists vs, Forall2 (fun l a => rd l = Ok a) (map f ps) vs /\ Forall2 R ps vs.
Proof.
  induction 1 as [|p ps (a & E & H) _ (vs & H1 & H2)]; [exists []; split; constructor|].
  exists (a :: vs). cbn [map]. split; constructor; auto.
Qed.
Lemma rows_all (f : particle -> list ascii) ps : (forall p, row (f p)) -> Forall row (map f ps).
Proof. intros H. induction ps; constructor; auto. Qed.
Lemma rowsZ_all (f : Z -> list ascii) zs : (forall z, row (f z)) -> Forall row (map f zs).
Proof. intros H. induction zs; constructor; auto. Qed.

Lemma Forall2_nth {A B} (R : A -> B -> Prop) l l' i a : Forall2 R l l' -> nth_error l i = Some a -> exists b, nth_error l' i = Some b /\ R a b.
Proof.
  intros H. revert i. induction H as [|x y l l' Hxy _ IH]; intros [|i] E; try discriminate; cbn [nth_error] in *.
  - injection E as <-. eauto.
  - auto.
Qed.
Lemma nth_error_app_l {A} (l l' : list A) i a : nth_error l i = Some a -> nth_error (l ++ l') i = Some a.
Proof. intros E. rewrite nth_error_app1; [exact E|]. apply nth_error_Some. congruence. Qed.


Lemma build_spec dbg rho v ps0 d2 :
  Forall2 (fun p w => rel3 as_printed (p_pos p) w) ps0 (v_pos v) ->
  Forall2 (fun p w => rel3 as_printed (p_vel p) w) ps0 (v_vel v) ->
  v_types v = map p_type ps0 -> v_ftypes v = map p_fluidType ps0 ->
  (exists d1, v_dens v = d1 ++ d2 /\ Forall2 (fun p y => as_printed (p_nd p) y) ps0 d1) ->
  forall ps pre acc, ps0 = pre ++ ps -> List.length pre = List.length acc ->
  exists qs, vtu_build dbg rho v (List.length acc) (List.length ps) acc = Ok (acc ++ qs)
    /\ restored_at as_printed (dens_read rho) p_fluidType (List.length acc) ps qs.
Proof.
  intros HP HV HT HF (d1 & HD & HD1). induction ps as [|p ps IH]; intros pre acc E L.
  - exists []. cbn [List.length vtu_build]. rewrite app_nil_r. split; [reflexivity|apply restored_nil].
  - assert (EN : nth_error ps0 (List.length acc) = Some p). { rewrite E, <- L, nth_error_app2, Nat.sub_diag by lia. reflexivity. }
    destruct (Forall2_nth _ _ _ _ _ HP EN) as (pos & E1 & A1). destruct (Forall2_nth _ _ _ _ _ HV EN) as (vel & E2 & A2).
    destruct (Forall2_nth _ _ _ _ _ HD1 EN) as (y & E3 & A3). apply (nth_error_app_l _ d2) in E3. rewrite <- HD in E3.
    assert (E4 : nth_error (v_types v) (List.length acc) = Some (p_type p)) by now rewrite HT, BaseFacts.nth_error_map, EN.
    assert (E5 : nth_error (v_ftypes v) (List.length acc) = Some (p_fluidType p)) by now rewrite HF, BaseFacts.nth_error_map, EN.
    cbn [List.length vtu_build]. rewrite E1, E2, E3, E4, E5. cbn [or_else].
    set (d := if @nle F64 (B754_zero false) y then y else rho). rewrite add_next. cbn [bind].
    destruct (IH (pre ++ [p]) (acc ++ [newParticle (Z.of_nat (List.length acc)) (p_type p) pos vel d (p_fluidType p)])) as (qs & E' & A).
    { rewrite <- app_assoc. exact E. } { rewrite !app_length. cbn [List.length]. lia. }
    rewrite app_length in E', A. cbn [List.length] in E', A. rewrite Nat.add_1_r in E', A.
    exists (newParticle (Z.of_nat (List.length acc)) (p_type p) pos vel d (p_fluidType p) :: qs). rewrite E', <- app_assoc. split; [reflexivity|].
    apply (restored_cons as_printed (dens_read rho) p_fluidType); auto. exists y. auto.
Qed.

(** ** the lines of the file *)
Lemma any_false pat ls : Forall (fun l => no nl l /\ contains pat l = false) ls ->
  forall fuel, (List.length ls < fuel)%nat -> any_line fuel pat (inl ls) = Ok false.
Proof.
  induction 1 as [|l ls (N & C) _ IH]; intros fuel L; (destruct fuel as [|fuel]; [cbn in L; lia|]); cbn [any_line].
  - reflexivity.
  - rewrite getline_cons by exact N. rewrite C. apply IH. cbn [List.length] in L. lia.
Qed.
Lemma any_true pat rest : forall ls l fuel, Forall (no nl) (ls ++ [l]) -> contains pat l = true -> (List.length (ls ++ [l]) < fuel)%nat ->
  any_line fuel pat (mkIn (lines_text (ls ++ [l]) ++ rest) false) = Ok true.
Proof.
  assert (G : forall l t, no nl l -> getline (mkIn ((l ++ nl :: t)) false) [] = (true, mkIn t false, l)).
  { intros l t N. unfold getline. cbn [in_eof in_rest]. pose proof (upto_nl_line l t N) as K.
    destruct (l ++ nl :: t) as [|c r] eqn:E; [now destruct l|]. rewrite K. reflexivity. }
  induction ls as [|a ls IH]; intros l fuel N C L; (destruct fuel as [|fuel]; [cbn in L; lia|]); cbn [app] in *; inversion_clear N as [|? ? N1 N2]; cbn [any_line];
    rewrite lines_text_cons, <- app_assoc; cbn [app]; rewrite G by exact N1.
  - now rewrite C.
  - destruct (contains pat a); [reflexivity|]. apply IH; auto. cbn [List.length] in L. lia.
Qed.
Lemma lines_length ls : (List.length ls <= List.length (lines_text ls))%nat.
Proof. induction ls as [|l ls IH]; [auto|]. rewrite lines_text_cons, app_length. cbn [List.length]. lia. Qed.

Lemma piece_line n : boring (lit "<Piece NumberOfPoints=" ++ quoted (showZ n) ++ lit " NumberOfCells=" ++ quoted (showZ n) ++ lit ">").
Proof.
  destruct (boring_kw _ (row_boring _ (showZ_row n))) as (K1 & K2 & K3 & K4 & K5 & K6).
  unfold boring, keywords. cbn [map forallb]. rewrite !andb_true_iff, !negb_true_iff.
  repeat split; rewrite !contains_quoted by reflexivity; rewrite ?K1, ?K2, ?K3, ?K4, ?K5, ?K6; reflexivity.
Qed.
Lemma no_app c a b : no c a -> no c b -> no c (a ++ b).
Proof. intros A B. apply Forall_app. now split. Qed.
Lemma piece_nl n : no nl (lit "<Piece NumberOfPoints=" ++ quoted (showZ n) ++ lit " NumberOfCells=" ++ quoted (showZ n) ++ lit ">").
Proof.
  assert (Q : no nl (quoted (showZ n))). { unfold quoted. constructor; [reflexivity|]. apply no_app; [apply showZ_no_nl|repeat constructor]. }
  repeat apply no_app; auto; repeat constructor.
Qed.
Lemma piece_bin n : contains (lit "<AppendedData") (lit "<Piece NumberOfPoints=" ++ quoted (showZ n) ++ lit " NumberOfCells=" ++ quoted (showZ n) ++ lit ">") = false.
Proof. rewrite !contains_quoted by reflexivity. rewrite (row_bin _ (showZ_row n)). reflexivity. Qed.

Definition quiet (l : list ascii) : Prop := no nl l /\ contains (lit "<AppendedData") l = false.
Lemma quiet_rows rows : Forall row rows -> Forall quiet rows.
Proof. apply Forall_impl. intros l H. split; [now apply row_nl|now apply row_bin]. Qed.
Lemma quiet_array ty name nc rows : quiet (dataArrayBegin ty name nc None) -> Forall row rows -> Forall quiet (ascii_array ty name nc rows).
Proof. intros Q H. constructor; [exact Q|]. apply Forall_app. split; [now apply quiet_rows|]. constructor; [|constructor]. split; [repeat constructor|reflexivity]. Qed.
Ltac closed_quiet := split; [closed_no|vm_compute; reflexivity].
Lemma quiet_head big n : Forall quiet (vtu_head big n).
Proof.
  unfold vtu_head. apply Forall_cons; [closed_quiet|]. apply Forall_cons; [destruct big; closed_quiet|]. apply Forall_cons; [closed_quiet|].
  apply Forall_cons; [split; [apply piece_nl|apply piece_bin]|]. apply Forall_cons; [closed_quiet|]. apply Forall_nil.
Qed.
Lemma quiet_show t : quiet (show t).
Proof. split; [apply show_no_nl|apply row_bin, show_row]. Qed.
Lemma quiet_file big t n0 ps : Forall quiet (vtuAscii_lines big t n0 ps).
Proof.
  unfold vtuAscii_lines.
  apply Forall_app; split; [apply quiet_head|].
  apply Forall_app; split; [apply quiet_array; [closed_quiet|apply rows_all; intros; apply show3_row]|].
  apply Forall_app; split; [do 2 (apply Forall_cons; [closed_quiet|]); apply Forall_nil|].
  apply Forall_app; split; [apply quiet_array; [closed_quiet|apply rows_all; intros; apply showZ_row]|].
  apply Forall_app; split; [apply quiet_array; [closed_quiet|apply rows_all; intros; apply show3_row]|].
  do 3 (apply Forall_app; split; [apply quiet_array; [closed_quiet|apply rows_all; intros; apply show_row]|]).
  do 2 (apply Forall_app; split; [apply quiet_array; [closed_quiet|apply rows_all; intros; apply showZ_row]|]).
  apply Forall_app; split; [do 2 (apply Forall_cons; [closed_quiet|]); apply Forall_nil|].
  do 2 (apply Forall_app; split; [apply quiet_array; [closed_quiet|apply rowsZ_all; intros; apply showZ_row]|]).
  apply Forall_app; split; [apply quiet_array; [closed_quiet|apply rows_all; intros; apply showZ_row]|].
  do 4 (apply Forall_cons; [closed_quiet|]). apply Forall_cons; [apply quiet_show|]. do 4 (apply Forall_cons; [closed_quiet|]). apply Forall_nil.
Qed.

Lemma vtu_round_trip dbg rho big t n0 ps : time_like t -> Forall (exportable n0) ps ->
  exists t' ps', vtu_load dbg rho (toVtuAscii big t n0 ps) = Ok (t', ps') /\ as_printed t t'
    /\ restored as_printed (dens_read rho) p_fluidType ps ps'.
Proof.
  intros T W. unfold vtu_load, toVtuAscii. cbv zeta.
  pose proof (lines_length (vtuAscii_lines big t n0 ps)) as LL.
  set (fuel := S (S (List.length (lines_text (vtuAscii_lines big t n0 ps))))). assert (LF : (List.length (vtuAscii_lines big t n0 ps) < fuel)%nat) by (unfold fuel; lia).
  rewrite (any_false (lit "<AppendedData") _ (quiet_file big t n0 ps) fuel LF). cbn [bind]. cbv iota.
  destruct (stod_show t T) as (t' & ET & AT).
  destruct (rows_read line3 (fun p => show3 sp (p_pos p)) (fun p w => rel3 as_printed (p_pos p) w) ps) as (P & P1 & P2).
  { apply (Forall_impl _) with (2 := W). intros p ((_ & _ & F & _) & _). now apply line3_show. }
  destruct (rows_read line3 (fun p => show3 sp (p_vel p)) (fun p w => rel3 as_printed (p_vel p) w) ps) as (V & V1 & V2).
  { apply (Forall_impl _) with (2 := W). intros p ((_ & _ & _ & F) & _). now apply line3_show. }
  destruct (rows_read (line1 get_double) (fun p => show (p_nd p)) (fun p y => as_printed (p_nd p) y) ps) as (D & D1 & D2).
  { apply (Forall_impl _) with (2 := W). intros p (_ & F & _). now apply line1_show. }
  destruct (rows_read (line1 get_double) (fun p => show (@ndiv F64 (p_nd p) n0)) (fun p y => as_printed (@ndiv F64 (p_nd p) n0) y) ps) as (Q & Q1 & Q2).
  { apply (Forall_impl _) with (2 := W). intros p (_ & _ & F). now apply line1_show. }
  assert (Y1 : Forall2 (fun l a => line1 get_int l = Ok a) (map (fun p => showZ (p_type p)) ps) (map p_type ps)).
  { clear - W. induction W as [|p ps ((I & _) & _) _ IH]; constructor; [now apply line1_showZ|exact IH]. }
  assert (Y2 : Forall2 (fun l a => line1 get_int l = Ok a) (map (fun p => showZ (p_fluidType p)) ps) (map p_fluidType ps)).
  { clear - W. induction W as [|p ps ((_ & I & _) & _) _ IH]; constructor; [now apply line1_showZ|exact IH]. }
  assert (LP : loops (vtuAscii_lines big t n0 ps) (mkVtu B754_nan [] [] [] [] []) (Ok (mkVtu t' P V (map p_type ps) (map p_fluidType ps) (D ++ Q)))).
  { unfold vtuAscii_lines, vtu_head. cbn [app].
    apply loops_boring; [closed_no|vm_compute; reflexivity|].
    apply loops_boring; [destruct big; closed_no|destruct big; vm_compute; reflexivity|].
    apply loops_boring; [closed_no|vm_compute; reflexivity|].
    apply loops_boring; [apply piece_nl|apply piece_line|].
    apply loops_boring; [closed_no|vm_compute; reflexivity|].
    apply (loops_position _ P); [apply rows_all; intros; apply show3_row|exact P1|]. cbn [app v_time v_pos v_vel v_types v_ftypes v_dens].
    do 2 (apply loops_boring; [closed_no|vm_compute; reflexivity|]).
    apply (loops_type _ (map p_type ps)); [apply rows_all; intros; apply showZ_row|exact Y1|]. cbn [app v_time v_pos v_vel v_types v_ftypes v_dens].
    apply (loops_velocity _ V); [apply rows_all; intros; apply show3_row|exact V1|]. cbn [app v_time v_pos v_vel v_types v_ftypes v_dens].
    apply loops_skip; [closed_no|vm_compute; reflexivity|apply rows_all; intros; apply show_row|].
    apply (loops_density _ _ D); [now left|apply rows_all; intros; apply show_row|exact D1|]. cbn [app v_time v_pos v_vel v_types v_ftypes v_dens].
    apply (loops_density _ _ Q); [now right|apply rows_all; intros; apply show_row|exact Q1|]. cbn [app v_time v_pos v_vel v_types v_ftypes v_dens].
    apply loops_skip; [closed_no|vm_compute; reflexivity|apply rows_all; intros; apply showZ_row|].
    apply (loops_ftype _ (map p_fluidType ps)); [apply rows_all; intros; apply showZ_row|exact Y2|]. cbn [app v_time v_pos v_vel v_types v_ftypes v_dens].
    do 2 (apply loops_boring; [closed_no|vm_compute; reflexivity|]).
    apply loops_skip; [closed_no|vm_compute; reflexivity|apply rowsZ_all; intros; apply showZ_row|].
    apply loops_skip; [closed_no|vm_compute; reflexivity|apply rowsZ_all; intros; apply showZ_row|].
    apply loops_skip; [closed_no|vm_compute; reflexivity|apply rows_all; intros; apply showZ_row|].
    do 3 (apply loops_boring; [closed_no|vm_compute; reflexivity|]).
    apply (loops_time t t' _ _ _ ET). cbn [app v_time v_pos v_vel v_types v_ftypes v_dens].
    do 4 (apply loops_boring; [closed_no|vm_compute; reflexivity|]). apply loops_nil. }
  rewrite (LP [] fuel LF). cbn [bind v_pos v_time].
  destruct (build_spec dbg rho (mkVtu t' P V (map p_type ps) (map p_fluidType ps) (D ++ Q)) ps Q P2 V2 eq_refl eq_refl
    (ex_intro _ D (conj eq_refl D2)) ps [] [] eq_refl eq_refl) as (qs & E & A).
  cbn [List.length] in E. assert (PL : List.length P = List.length ps) by (clear - P2; induction P2; cbn [List.length]; congruence). rewrite PL, E. cbn [app bind]. exists t', qs. split; [reflexivity|]. split; [exact AT|]. exact A.
Qed.
