(** * Round trips of the text formats *)
From Coq Require Import Reals Lra PeanoNat.
From Flocq Require Import Core.Zaux Core.Raux Core.Defs Core.Generic_fmt Core.Round_NE Core.FLX Core.Float_prop.
From Verif Require Export FloatFacts DecimalFacts.
Open Scope Z_scope.

(** ** characters of numbers *)
Definition numchar (c : ascii) : bool :=
  is_digit c || is_sign c || is_exp c || existsb (Ascii.eqb c) (lit ".infa").
Lemma digits_numchar ds : Forall digit ds -> Forall (fun c => numchar c = true) (map digit_char ds).
Proof.
  induction 1 as [|d l D _ IH]; cbn [map]; constructor; [|exact IH]. unfold numchar. now rewrite is_digit_char.
Qed.
Lemma sign_numchar s : Forall (fun c => numchar c = true) (sign_text s).
Proof. destruct s; repeat constructor. Qed.
Lemma spelled_numchar ds fs x : spells ds fs x -> Forall (fun c => numchar c = true) (spelled ds fs x).
Proof.
  intros (_ & D & F & X). unfold spelled. apply Forall_app. split; [now apply digits_numchar|]. apply Forall_app. split.
  - destruct fs as [|f fs]; constructor; [reflexivity|now apply digits_numchar].
  - destruct x as [[n es]|]; [|constructor]. constructor; [reflexivity|]. constructor; [now destruct n|]. destruct X. now apply digits_numchar.
Qed.
Lemma show_numchar (x : f64) : Forall (fun c => numchar c = true) (show x).
Proof.
  destruct (is_finite x) eqn:F.
  - destruct (show_spelled x F) as (s & ds & fs & ex & E & SP & _). rewrite E. apply Forall_app. split; [apply sign_numchar|now apply spelled_numchar].
  - destruct x as [s|s| |s m e B]; try discriminate F; cbn [show].
    + apply Forall_app. split; [apply sign_numchar|repeat constructor].
    + repeat constructor.
Qed.
Lemma showZ_numchar z : Forall (fun c => numchar c = true) (showZ z).
Proof.
  unfold showZ, digit_text. destruct (Z.ltb_spec z 0); [constructor; [reflexivity|]|]; apply digits_numchar; apply digits_Forall; lia.
Qed.
Lemma show_nonempty (x : f64) : show x <> [].
Proof.
  destruct (is_finite x) eqn:F.
  - destruct (show_spelled x F) as (s & ds & fs & ex & E & SP & _). rewrite E. destruct SP as (N & _). intros K. apply app_eq_nil in K. destruct K as [_ K].
    unfold spelled in K. destruct ds; [congruence|discriminate].
  - destruct x as [s|s| |s m e B]; try discriminate F; cbn [show]; [|discriminate]. now destruct s.
Qed.
Lemma showZ_nonempty z : showZ z <> [].
Proof.
  unfold showZ, digit_text. destruct (Z.ltb_spec z 0); [discriminate|]. intros K. apply map_eq_nil in K. now apply digits_nonempty in K.
Qed.
Lemma numchar_not_space c : numchar c = true -> is_space c = false.
Proof. destruct c as [[] [] [] [] [] [] [] []]; vm_compute; congruence. Qed.
Lemma numchar_not_nl c : numchar c = true -> Ascii.eqb c nl = false.
Proof. destruct c as [[] [] [] [] [] [] [] []]; vm_compute; congruence. Qed.
Lemma numchar_not_comma c : numchar c = true -> Ascii.eqb c comma = false.
Proof. destruct c as [[] [] [] [] [] [] [] []]; vm_compute; congruence. Qed.

(** ** reading numbers from a stream *)
Lemma skip_ws_app ws l : Forall (fun c => is_space c = true) ws -> skip_ws (ws ++ l) = skip_ws l.
Proof. induction 1 as [|c ws C _ IH]; cbn [app skip_ws]; [reflexivity|]. rewrite C. exact IH. Qed.
Lemma skip_ws_word w l : w <> [] -> Forall (fun c => numchar c = true) w -> skip_ws (w ++ l) = w ++ l.
Proof. destruct w as [|c w]; [congruence|]. intros _ H. inversion_clear H. cbn [app skip_ws]. now rewrite numchar_not_space. Qed.
Lemma extract_word {A} (get : list ascii -> A * bool * list ascii) ws w rest a :
  Forall (fun c => is_space c = true) ws -> w <> [] -> Forall (fun c => numchar c = true) w ->
  get (w ++ rest) = (a, true, rest) -> extract get (mkStream (ws ++ w ++ rest) false) = (Some a, mkStream rest false).
Proof.
  intros WS W N G. unfold extract. cbn [st_fail st_rest]. rewrite skip_ws_app, skip_ws_word by assumption.
  destruct (w ++ rest) as [|c r] eqn:E. { destruct w; [congruence|discriminate]. }
  rewrite G. reflexivity.
Qed.
Lemma get_int_showZ z rest : in_int z = true -> free is_digit rest -> get_int (showZ z ++ rest) = (z, true, rest).
Proof.
  intros I F. unfold in_int in I. rewrite andb_true_iff, !Z.leb_le in I. unfold get_int, showZ, digit_text.
  assert (K : forall s w, 0 <= w -> get_int (sign_text s ++ map digit_char (digits w) ++ rest) =
    let v := if s then - w else w in if v <? int_min then (int_min, false, rest) else if int_max <? v then (int_max, false, rest) else (v, true, rest)).
  { intros s w W. unfold get_int. rewrite scan_sign_text; cycle 1.
    { pose proof (digits_Forall w W) as D. pose proof (digits_nonempty w W) as N. destruct (digits w) as [|d ds]; [congruence|]. cbn [map app free]. inversion_clear D. now apply digit_not_sign. }
    rewrite scan_digits by (auto using digits_Forall). rewrite digits_value, Z.mul_0_l, Z.add_0_l by exact W. cbn [Nat.add].
    pose proof (digits_nonempty w W) as N. destruct (digits w) as [|d ds]; [congruence|]. cbn [List.length]. reflexivity. }
  unfold get_int in K. destruct (Z.ltb_spec z 0) as [L|L].
  - specialize (K true (- z) ltac:(lia)). cbn [sign_text app] in K |- *. rewrite K. cbv zeta. rewrite Z.opp_involutive.
    rewrite (proj2 (Z.ltb_ge _ _)), (proj2 (Z.ltb_ge _ _)) by lia. reflexivity.
  - specialize (K false z ltac:(lia)). cbn [sign_text app] in K |- *. rewrite K. cbv zeta.
    rewrite (proj2 (Z.ltb_ge _ _)), (proj2 (Z.ltb_ge _ _)) by lia. reflexivity.
Qed.
Definition blank (c : ascii) : Prop := c = sp \/ c = nl.
Lemma blank_space c : blank c -> is_space c = true.
Proof. intros [-> | ->]; reflexivity. Qed.
Lemma blank_stop c r : blank c -> free stop (c :: r).
Proof. intros [-> | ->]; reflexivity. Qed.
Lemma blank_digit c r : blank c -> free is_digit (c :: r).
Proof. intros [-> | ->]; reflexivity. Qed.
Lemma extract_double ws (x : f64) rest : Forall (fun c => is_space c = true) ws -> is_finite x = true -> free stop rest ->
  exists y, extract get_double (mkStream (ws ++ show x ++ rest) false) = (Some y, mkStream rest false) /\ as_printed x y.
Proof.
  intros WS F S. destruct (get_double_show x rest F S) as (y & G & A). exists y. split; [|exact A].
  apply extract_word; auto using show_nonempty, show_numchar.
Qed.
Lemma extract_int ws z rest : Forall (fun c => is_space c = true) ws -> in_int z = true -> free is_digit rest ->
  extract get_int (mkStream (ws ++ showZ z ++ rest) false) = (Some z, mkStream rest false).
Proof. intros WS I F. apply extract_word; auto using showZ_nonempty, showZ_numchar, get_int_showZ. Qed.
Lemma show3_app sep v rest : show3 sep v ++ rest = show (vx v) ++ (sep :: show (vy v) ++ (sep :: show (vz v) ++ rest)).
Proof. unfold show3. rewrite <- app_assoc. cbn [app]. rewrite <- app_assoc. reflexivity. Qed.
Lemma extract3_show ws v rest : Forall (fun c => is_space c = true) ws -> all3 finite v -> free stop rest ->
  exists w, extract3 (mkStream (ws ++ show3 sp v ++ rest) false) = (Some (vx w), Some (vy w), Some (vz w), mkStream rest false) /\ rel3 as_printed v w.
Proof.
  intros WS (F1 & F2 & F3) S. rewrite show3_app.
  destruct (extract_double ws (vx v) (sp :: show (vy v) ++ sp :: show (vz v) ++ rest) WS F1 eq_refl) as (x & E1 & A1).
  destruct (extract_double [sp] (vy v) (sp :: show (vz v) ++ rest) ltac:(repeat constructor) F2 eq_refl) as (y & E2 & A2).
  destruct (extract_double [sp] (vz v) rest ltac:(repeat constructor) F3 S) as (z & E3 & A3).
  exists (@mkV F64 x y z). unfold extract3. rewrite E1. cbn [app] in E2, E3. rewrite E2, E3. cbn [vx vy vz]. split; [reflexivity|]. now split.
Qed.

(** ** prof *)
Lemma lines_text_cons l ls : lines_text (l :: ls) = l ++ nl :: lines_text ls.
Proof. unfold lines_text. cbn [flat_map]. rewrite <- app_assoc. reflexivity. Qed.
Definition restored_row (rho : f64) (i : Z) (p q : particle) : Prop :=
  exists pos vel, q = newParticle i (p_type p) pos vel rho 0 /\ rel3 as_printed (p_pos p) pos /\ rel3 as_printed (p_vel p) vel.
Lemma add_next dbg (ps : list particle) ty pos vel d fty :
  add_particle dbg ps (newParticle (Z.of_nat (List.length ps)) ty pos vel d fty) = Ok (ps ++ [newParticle (Z.of_nat (List.length ps)) ty pos vel d fty]).
Proof. unfold add_particle, cassert. cbn [newParticle p_id]. rewrite Z.eqb_refl. cbn [negb]. rewrite andb_false_r. reflexivity. Qed.
Definition restored_at (R : f64 -> f64 -> Prop) (dens : particle -> f64 -> Prop) (fty : particle -> Z) (k : nat) (ps qs : list particle) : Prop :=
  List.length qs = List.length ps /\
  forall i p, nth_error ps i = Some p ->
    exists pos vel d, nth_error qs i = Some (newParticle (Z.of_nat (k + i)) (p_type p) pos vel d (fty p))
      /\ rel3 R (p_pos p) pos /\ rel3 R (p_vel p) vel /\ dens p d.
Lemma restored_nil R dens fty k : restored_at R dens fty k [] [].
Proof. split; [reflexivity|]. intros i p H. destruct i; discriminate. Qed.
Lemma restored_cons (R : f64 -> f64 -> Prop) (dens : particle -> f64 -> Prop) fty k (p : particle) ps qs pos vel d :
  rel3 R (p_pos p) pos -> rel3 R (p_vel p) vel -> dens p d ->
  restored_at R dens fty (S k) ps qs -> restored_at R dens fty k (p :: ps) (newParticle (Z.of_nat k) (p_type p) pos vel d (fty p) :: qs).
Proof.
  intros H1 H2 H3 [L H]. split; [cbn [List.length]; now rewrite L|]. intros [|i] p' E; cbn [nth_error] in *.
  - injection E as <-. exists pos, vel, d. rewrite Nat.add_0_r. auto.
  - destruct (H i p' E) as (pos' & vel' & d' & E' & A). exists pos', vel', d'. rewrite E'. split; [|exact A].
    replace (k + S i)%nat with (S k + i)%nat by lia. reflexivity.
Qed.
Lemma prof_row_app p rest : prof_row p ++ rest = showZ (p_type p) ++ (sp :: show3 sp (p_pos p) ++ (sp :: show3 sp (p_vel p) ++ rest)).
Proof. unfold prof_row. rewrite <- app_assoc. cbn [app]. rewrite <- app_assoc. reflexivity. Qed.
Lemma prof_rows_spec dbg rho : forall ps acc, Forall writable ps ->
  exists qs, prof_rows dbg rho (List.length ps) (mkStream (nl :: lines_text (map prof_row ps)) false) acc = Ok (acc ++ qs)
    /\ restored_at as_printed (fun _ d => d = rho) (fun _ => 0) (List.length acc) ps qs.
Proof.
  induction ps as [|p ps IH]; intros acc W.
  - exists []. cbn [List.length prof_rows]. rewrite app_nil_r. split; [reflexivity|apply restored_nil].
  - inversion_clear W as [|? ? W1 W2]. destruct W1 as (T & _ & F1 & F2). cbn [List.length prof_rows map]. rewrite lines_text_cons, prof_row_app.
    pose proof (extract_int [nl] (p_type p) (sp :: show3 sp (p_pos p) ++ (sp :: show3 sp (p_vel p) ++ nl :: lines_text (map prof_row ps))) ltac:(repeat constructor) T eq_refl) as E1.
    destruct (extract3_show [sp] (p_pos p) (sp :: show3 sp (p_vel p) ++ nl :: lines_text (map prof_row ps)) ltac:(repeat constructor) F1 eq_refl) as (pos & E2 & A2).
    destruct (extract3_show [sp] (p_vel p) (nl :: lines_text (map prof_row ps)) ltac:(repeat constructor) F2 eq_refl) as (vel & E3 & A3).
    cbn [app] in E1, E2, E3. rewrite E1, E2, E3. cbn [stored3 stored bind or_else].
    destruct pos as [px py pz], vel as [wx wy wz]. cbn [vx vy vz]. rewrite add_next. cbn [bind].
    destruct (IH (acc ++ [newParticle (Z.of_nat (List.length acc)) (p_type p) (mkV px py pz) (mkV wx wy wz) rho 0]) W2) as (qs & E & A).
    exists (newParticle (Z.of_nat (List.length acc)) (p_type p) (mkV px py pz) (mkV wx wy wz) rho 0 :: qs). rewrite E, <- app_assoc. split; [reflexivity|].
    rewrite app_length in A. cbn [List.length] in A. replace (List.length acc + 1)%nat with (S (List.length acc)) in A by lia.
    apply (restored_cons _ (fun _ d => d = rho) (fun _ => 0)); auto.
Qed.
Lemma prof_round_trip dbg rho t ps : finite t -> Forall writable ps -> Z.of_nat (List.length ps) <= int_max ->
  exists t' ps', prof_load dbg rho (toProf t ps) = Ok (t', ps') /\ as_printed t t'
    /\ restored as_printed (fun _ d => d = rho) (fun _ => 0) ps ps'.
Proof.
  intros F W L. unfold prof_load, toProf. rewrite !lines_text_cons.
  destruct (extract_double [] t (nl :: showZ (Z.of_nat (List.length ps)) ++ nl :: lines_text (map prof_row ps)) ltac:(constructor) F eq_refl) as (t' & E1 & A1).
  assert (I : in_int (Z.of_nat (List.length ps)) = true).
  { unfold in_int. rewrite andb_true_iff, !Z.leb_le. unfold int_min. lia. }
  pose proof (extract_int [nl] (Z.of_nat (List.length ps)) (nl :: lines_text (map prof_row ps)) ltac:(repeat constructor) I eq_refl) as E2.
  cbn [app] in E1, E2. rewrite E1, E2. cbn [or_else]. rewrite Nat2Z.id.
  destruct (prof_rows_spec dbg rho ps [] W) as (qs & E & A). rewrite E. cbn [bind app]. exists t', qs. split; [reflexivity|]. split; [exact A1|]. exact A.
Qed.

(** ** exporting what was loaded gives the same text *)
Lemma show3_stable sep v w : all3 finite v -> rel3 reads_as v w -> show3 sep w = show3 sep v.
Proof. intros (F1 & F2 & F3) (R1 & R2 & R3). unfold show3. rewrite (show_stable _ _ F1 R1), (show_stable _ _ F2 R2), (show_stable _ _ F3 R3). reflexivity. Qed.
Lemma restored_map {B} (f : particle -> B) (R : f64 -> f64 -> Prop) dens fty k ps qs : restored_at R dens fty k ps qs ->
  (forall i p pos vel d, nth_error ps i = Some p -> rel3 R (p_pos p) pos -> rel3 R (p_vel p) vel -> dens p d ->
     f (newParticle (Z.of_nat (k + i)) (p_type p) pos vel d (fty p)) = f p) -> map f qs = map f ps.
Proof.
  intros [L H] F. apply list_ext. intros i. rewrite !BaseFacts.nth_error_map. destruct (nth_error ps i) as [p|] eqn:E.
  - destruct (H i p E) as (pos & vel & d & E' & A1 & A2 & A3). rewrite E'. cbn [option_map]. f_equal. now apply F.
  - apply nth_error_None in E. rewrite <- L in E. apply nth_error_None in E. rewrite E. reflexivity.
Qed.
Lemma normal_finite3 v : all3 normal v -> all3 finite v.
Proof. intros (A & B & C). repeat split; [apply A|apply B|apply C]. Qed.
Lemma printed_reads3 v w : all3 normal v -> rel3 as_printed v w -> rel3 reads_as v w.
Proof. intros (A & B & C) (A' & B' & C'). repeat split; try (now apply (printed_reads _ _ A A')); try (now apply (printed_reads _ _ B B')); now apply (printed_reads _ _ C C'). Qed.
Lemma prof_fixed_point t t' ps ps' dens : normal t -> as_printed t t' -> Forall (fun p => all3 normal (p_pos p) /\ all3 normal (p_vel p)) ps ->
  restored as_printed dens (fun _ => 0) ps ps' -> toProf t' ps' = toProf t ps.
Proof.
  intros N A W R. unfold toProf. rewrite (show_reread t t' N A). rewrite (proj1 R).
  rewrite (restored_map prof_row as_printed dens (fun _ => 0) 0 ps ps' R); [reflexivity|].
  intros i p pos vel d E A1 A2 _. rewrite Forall_forall in W. destruct (W p (nth_error_In _ _ E)) as [N1 N2].
  unfold prof_row. cbn [newParticle p_type p_pos p_vel].
  rewrite (show3_stable sp (p_pos p) pos), (show3_stable sp (p_vel p) vel); auto using normal_finite3, printed_reads3.
Qed.

(** ** csv *)
Definition no (c : ascii) (l : list ascii) : Prop := Forall (fun d => Ascii.eqb d c = false) l.
Lemma no_comma l : Forall (fun c => numchar c = true) l -> no comma l.
Proof. intros H. apply (Forall_impl _ (fun c => numchar_not_comma c) H). Qed.
Lemma no_nl l : Forall (fun c => numchar c = true) l -> no nl l.
Proof. intros H. apply (Forall_impl _ (fun c => numchar_not_nl c) H). Qed.
Lemma cells_from_cons w l : forall cur, no comma w -> cells_from cur (w ++ comma :: l) = (cur ++ w) :: cells_from [] l.
Proof.
  induction w as [|c w IH]; intros cur N; cbn [app cells_from].
  - change (Ascii.eqb comma comma) with true. cbv iota. now rewrite app_nil_r.
  - inversion_clear N. rewrite H. rewrite IH by assumption. now rewrite <- app_assoc.
Qed.
Lemma cells_from_last w : forall cur, no comma w -> cells_from cur w = [cur ++ w].
Proof.
  induction w as [|c w IH]; intros cur N; cbn [cells_from]. { now rewrite app_nil_r. }
  inversion_clear N. rewrite H, IH by assumption. now rewrite <- app_assoc.
Qed.
Lemma cells_csv_row p : cells (csv_row p) =
  [showZ (p_type p); showZ (p_fluidType p); show (vx (p_pos p)); show (vy (p_pos p)); show (vz (p_pos p)); show (vx (p_vel p)); show (vy (p_vel p)); show (vz (p_vel p))].
Proof.
  unfold csv_row, cells. rewrite cells_from_cons by (apply no_comma, showZ_numchar). rewrite cells_from_cons by (apply no_comma, showZ_numchar).
  rewrite show3_app. do 3 (rewrite cells_from_cons by (apply no_comma, show_numchar)). rewrite <- (app_nil_r (show3 comma (p_vel p))), show3_app.
  do 2 (rewrite cells_from_cons by (apply no_comma, show_numchar)). rewrite app_nil_r, cells_from_last by (apply no_comma, show_numchar). reflexivity.
Qed.
Lemma lines_of_cons w l : forall cur, no nl w -> lines_of (w ++ nl :: l) cur = (cur ++ w) :: lines_of l [].
Proof.
  induction w as [|c w IH]; intros cur N; cbn [app lines_of].
  - change (Ascii.eqb nl nl) with true. cbv iota. now rewrite app_nil_r.
  - inversion_clear N. rewrite H. rewrite IH by assumption. now rewrite <- app_assoc.
Qed.
Lemma lines_of_text ls : Forall (no nl) ls -> lines_of (lines_text ls) [] = ls.
Proof.
  induction 1 as [|l ls N _ IH]; [reflexivity|]. rewrite lines_text_cons, lines_of_cons by exact N. now rewrite IH.
Qed.
Lemma no_app c a b : no c (a ++ b) <-> no c a /\ no c b.
Proof. apply Forall_app. Qed.
Lemma no_cons c d l : Ascii.eqb d c = false -> no c l -> no c (d :: l).
Proof. intros H N. now constructor. Qed.
Lemma show_no_nl x : no nl (show x). Proof. apply no_nl, show_numchar. Qed.
Lemma showZ_no_nl z : no nl (showZ z). Proof. apply no_nl, showZ_numchar. Qed.
Lemma show3_no_nl sep v : Ascii.eqb sep nl = false -> no nl (show3 sep v).
Proof.
  intros S. unfold show3. apply no_app. split; [apply show_no_nl|]. apply no_cons; [exact S|]. apply no_app. split; [apply show_no_nl|].
  apply no_cons; [exact S|]. apply show_no_nl.
Qed.
Lemma csv_row_no_nl p : no nl (csv_row p).
Proof.
  unfold csv_row. apply no_app. split; [apply showZ_no_nl|]. apply no_cons; [reflexivity|]. apply no_app. split; [apply showZ_no_nl|].
  apply no_cons; [reflexivity|]. apply no_app. split; [now apply show3_no_nl|]. apply no_cons; [reflexivity|]. now apply show3_no_nl.
Qed.

(** std::stod of a printed time and of a printed count *)
Lemma min_normal_B2R : B2R min_normal = bpow radix2 (-1022) /\ is_finite min_normal = true.
Proof.
  assert (E : B2SF min_normal = SpecFloat.S754_finite false 4503599627370496 (-1074)) by (vm_compute; reflexivity).
  destruct min_normal as [s|s| |s m e B]; try discriminate E. cbn [B2SF] in E. injection E as -> -> ->. split; [|reflexivity].
  cbn [B2R cond_Zopp]. apply min_normal_value.
Qed.
Lemma round64_normal x : (bpow radix2 (-1022) <= x)%R -> (bpow radix2 (-1022) <= round64 x)%R.
Proof.
  intros H. replace (bpow radix2 (-1022)) with (round64 (bpow radix2 (-1022))). { now apply round64_le. }
  unfold round64. destruct min_normal_B2R as [<- _]. apply round_generic; [apply valid_rnd_N|]. apply generic_format_B2R.
Qed.
Lemma big_not_tiny (y : f64) : is_finite y = true -> (bpow radix2 (-1022) <= Rabs (B2R y))%R -> @nlt F64 (Babs y) min_normal = false.
Proof.
  intros F H. destruct min_normal_B2R as [M MF]. apply Flt_fin_false; [now rewrite is_finite_Babs|exact MF|]. rewrite M, B2R_Babs. exact H.
Qed.
Lemma time_normal : (bpow radix2 (-1022) <= ten (-300))%R.
Proof.
  change (-1022) with (- (1022)). change (-300) with (- (300)). rewrite !bpow_opp. apply Rinv_le; [apply bpow_gt_0|].
  rewrite <- (IZR_Zpower radix2), ten_pow by lia. apply IZR_le. vm_compute. discriminate.
Qed.
Lemma round6_ten e : round6 (ten e) = ten e.
Proof. unfold round6. apply round_generic; [apply valid_rnd_N|]. apply generic_format_bpow. unfold FLX_exp. lia. Qed.
Lemma round64_abs x : Rabs (round64 x) = round64 (Rabs x).
Proof.
  destruct (Rle_lt_dec 0 x) as [P|P].
  - rewrite !Rabs_pos_eq; [reflexivity|exact P|]. rewrite <- round64_0. now apply round64_le.
  - rewrite (Rabs_left x) by exact P. rewrite round64_opp. apply Rabs_left1. rewrite <- round64_0. apply round64_le. lra.
Qed.
Lemma printed_not_tiny t y : (ten (-300) <= Rabs (B2R t))%R -> as_printed t y -> (bpow radix2 (-1022) <= Rabs (B2R y))%R.
Proof.
  intros H (_ & _ & E). rewrite E, round64_abs, round6_abs. apply round64_normal. apply Rle_trans with (ten (-300)); [apply time_normal|].
  rewrite <- round6_ten. now apply round6_le.
Qed.
Lemma stod_spelled s ds fs x : spells ds fs x -> stod (sign_text s ++ spelled ds fs x) =
  (let N := value (ds ++ fs) in let y := of_dec s N (exponent x - Z.of_nat (List.length fs)) in
   if negb (is_finite y) then Throw else if N =? 0 then Ok y else if @nlt F64 (Babs y) min_normal then Throw else Ok y).
Proof.
  intros SP. unfold stod. rewrite <- (app_nil_r (sign_text s ++ spelled ds fs x)). rewrite skip_ws_word; cycle 1.
  { intros K. apply app_eq_nil in K. destruct K as [_ K]. destruct SP as (N & _). unfold spelled in K. destruct ds; [congruence|discriminate]. }
  { apply Forall_app. split; [apply sign_numchar|now apply spelled_numchar]. }
  rewrite <- app_assoc, (numeral_spelled s ds fs x [] SP I). reflexivity.
Qed.
Lemma stod_show t : time_like t -> exists t', stod (show t) = Ok t' /\ as_printed t t'.
Proof.
  intros [F H]. destruct t as [s| | |s m e B]; try discriminate F.
  - exists (B754_zero s). split; [destruct s; reflexivity|]. split; [reflexivity|]. split; [reflexivity|]. cbn [B2R].
    unfold round6. rewrite round_0 by apply valid_rnd_N. now rewrite round64_0.
  - set (t := B754_finite s m e B : f64) in *. assert (H' : (ten (-300) <= Rabs (B2R t))%R).
    { destruct H as [H|H]; [|exact H]. exfalso. unfold t in H. rewrite B2R_finite in H. pose proof (F2R_gt_0 radix2 (Float radix2 (Zpos m) e) eq_refl). destruct s; lra. }
    destruct (show_spelled t F) as (s' & ds & fs & ex & E & SP & A). rewrite E, stod_spelled by exact SP. cbv zeta.
    set (y := of_dec s' (value (ds ++ fs)) (exponent ex - Z.of_nat (List.length fs))) in *. exists y. split; [|exact A].
    rewrite (proj1 A). cbn [negb]. destruct (value (ds ++ fs) =? 0); [reflexivity|]. rewrite big_not_tiny; [reflexivity|exact (proj1 A)|].
    now apply (printed_not_tiny t).
Qed.
Lemma stod_count n : 0 <= n <= int_max -> exists y, stod (showZ n) = Ok y.
Proof.
  intros H. assert (E : showZ n = sign_text false ++ spelled (digits n) [] None).
  { unfold showZ, digit_text, spelled. rewrite (proj2 (Z.ltb_ge _ _)) by lia. cbn [sign_text app]. now rewrite app_nil_r. }
  assert (SP : spells (digits n) [] None).
  { repeat split; [apply digits_nonempty; lia|apply digits_Forall; lia|constructor]. }
  rewrite E, stod_spelled by exact SP. cbv zeta. rewrite app_nil_r, digits_value by lia. cbn [exponent List.length]. change (0 - Z.of_nat 0) with 0.
  destruct (Z.eq_dec n 0) as [->|NZ]. { eexists. reflexivity. }
  pose proof (of_dec_spec false n 0 ltac:(lia)) as K. cbv zeta iota in K. replace (IZR n * ten 0)%R with (IZR n) in K by (cbn; ring).
  assert (L : (1 <= IZR n)%R) by (apply IZR_le; lia). assert (U : (IZR n <= bpow radix2 31)%R).
  { rewrite <- (IZR_Zpower radix2) by lia. apply IZR_le. unfold int_max in H. change (radix2 ^ 31) with 2147483648. lia. }
  assert (G : forall e, -1000 <= e <= 1000 -> round64 (bpow radix2 e) = bpow radix2 e).
  { intros e He. unfold round64. apply round_generic; [apply valid_rnd_N|]. apply generic_format_bpow. unfold SpecFloat.fexp, SpecFloat.emin. lia. }
  assert (RL : (1 <= round64 (IZR n))%R). { change 1%R with (bpow radix2 0). rewrite <- (G 0) by lia. now apply round64_le. }
  assert (RU : (round64 (IZR n) <= bpow radix2 31)%R). { rewrite <- (G 31) by lia. now apply round64_le. }
  rewrite Rlt_bool_true in K; cycle 1.
  { rewrite Rabs_pos_eq by lra. apply Rle_lt_trans with (bpow radix2 31); [exact RU|]. apply bpow_lt. lia. }
  destruct K as (K1 & K2 & K3). eexists. rewrite K2. cbn [negb]. rewrite (proj2 (Z.eqb_neq _ _)) by exact NZ.
  rewrite big_not_tiny; [reflexivity|exact K2|]. rewrite K1, Rabs_pos_eq by lra. apply Rle_trans with 1%R; [|exact RL].
  change 1%R with (bpow radix2 0). apply bpow_le. lia.
Qed.

Section CsvTrip.
Variable cell_int : list ascii -> option Z.
Variable cell_dbl : list ascii -> option f64.
Variable R : f64 -> f64 -> Prop.
Hypothesis cell_int_ok : forall z, in_int z = true -> cell_int (showZ z) = Some z.
Hypothesis cell_dbl_ok : forall x, finite x -> exists y, cell_dbl (show x) = Some y /\ R x y.
Definition csv_columns : list (list ascii) := map lit ["type"; "fluidType"; "x"; "y"; "z"; "vx"; "vy"; "vz"]%string.
Lemma csv_header_read : read_header csv_header = Ok csv_columns.
Proof. reflexivity. Qed.
Lemma cell3_ok v : all3 finite v -> exists w, rel3 R v w /\ cell_dbl (show (vx v)) = Some (vx w) /\ cell_dbl (show (vy v)) = Some (vy w) /\ cell_dbl (show (vz v)) = Some (vz w).
Proof.
  intros (F1 & F2 & F3). destruct (cell_dbl_ok _ F1) as (x & E1 & A1), (cell_dbl_ok _ F2) as (y & E2 & A2), (cell_dbl_ok _ F3) as (z & E3 & A3).
  exists (@mkV F64 x y z). cbn [vx vy vz]. repeat split; assumption.
Qed.
Lemma read_row_ok p v : writable p -> exists pos vel, rel3 R (p_pos p) pos /\ rel3 R (p_vel p) vel /\
  read_row cell_int cell_dbl csv_columns (csv_row p) v =
    Ok (mkCv (Some (p_type p)) (Some (p_fluidType p)) (Some (vx pos)) (Some (vy pos)) (Some (vz pos)) (Some (vx vel)) (Some (vy vel)) (Some (vz vel)) (cv_dens v)).
Proof.
  intros (T & FT & F1 & F2). destruct (cell3_ok _ F1) as (pos & A1 & X1 & X2 & X3), (cell3_ok _ F2) as (vel & A2 & Y1 & Y2 & Y3).
  exists pos, vel. split; [exact A1|]. split; [exact A2|]. unfold read_row. rewrite cells_csv_row.
  remember (showZ (p_type p)) as a1 eqn:Ha1. remember (showZ (p_fluidType p)) as a2 eqn:Ha2.
  remember (show (vx (p_pos p))) as b1. remember (show (vy (p_pos p))) as b2. remember (show (vz (p_pos p))) as b3.
  remember (show (vx (p_vel p))) as c1. remember (show (vy (p_vel p))) as c2. remember (show (vz (p_vel p))) as c3.
  change (under (lit "type") csv_columns [a1; a2; b1; b2; b3; c1; c2; c3]) with (Some a1).
  change (under (lit "fluidType") csv_columns [a1; a2; b1; b2; b3; c1; c2; c3]) with (Some a2).
  change (under (lit "x") csv_columns [a1; a2; b1; b2; b3; c1; c2; c3]) with (Some b1).
  change (under (lit "y") csv_columns [a1; a2; b1; b2; b3; c1; c2; c3]) with (Some b2).
  change (under (lit "z") csv_columns [a1; a2; b1; b2; b3; c1; c2; c3]) with (Some b3).
  change (under (lit "vx") csv_columns [a1; a2; b1; b2; b3; c1; c2; c3]) with (Some c1).
  change (under (lit "vy") csv_columns [a1; a2; b1; b2; b3; c1; c2; c3]) with (Some c2).
  change (under (lit "vz") csv_columns [a1; a2; b1; b2; b3; c1; c2; c3]) with (Some c3).
  change (under (lit "density") csv_columns [a1; a2; b1; b2; b3; c1; c2; c3]) with (@None (list ascii)).
  cbn [List.length Nat.eqb negb csv_columns map]. unfold read_cell. rewrite Ha1, Ha2, !cell_int_ok by assumption. cbn [bind].
  rewrite X1, X2, X3, Y1, Y2, Y3. cbn [bind]. reflexivity.
Qed.
Lemma csv_rows_spec dbg rho : forall ps acc v, Forall writable ps ->
  (cv_dens v = Some rho \/ exists d, cv_dens v = Some d /\ @nlt F64 d (B754_zero false) = true) ->
  exists qs, csv_rows cell_int cell_dbl dbg rho csv_columns (map csv_row ps) v acc = Ok (acc ++ qs)
    /\ restored_at R (fun _ d => d = rho) (fun p => p_fluidType p) (List.length acc) ps qs.
Proof.
  induction ps as [|p ps IH]; intros acc v W D; cbn [map csv_rows].
  - exists []. rewrite app_nil_r. split; [reflexivity|apply restored_nil].
  - inversion_clear W as [|? ? W1 W2]. destruct (read_row_ok p v W1) as (pos & vel & A1 & A2 & E). rewrite E. cbn [bind cv_x cv_y cv_z cv_vx cv_vy cv_vz cv_dens cv_type cv_ftype stored3 stored].
    assert (DE : exists d, cv_dens v = Some d /\ (if @nlt F64 d (B754_zero false) then rho else d) = rho).
    { destruct D as [D|(d & D1 & D2)]; [exists rho|exists d]; (split; [assumption|]); [now destruct (@nlt F64 rho (B754_zero false))|now rewrite D2]. }
    destruct DE as (d & DE1 & DE2). rewrite DE1. cbn [bind stored]. cbv zeta. rewrite DE2. rewrite add_next. cbn [bind].
    set (q := newParticle (Z.of_nat (List.length acc)) (p_type p) (mkV (vx pos) (vy pos) (vz pos)) (mkV (vx vel) (vy vel) (vz vel)) rho (p_fluidType p)).
    destruct (IH (acc ++ [q]) (mkCv (Some (p_type p)) (Some (p_fluidType p)) (Some (vx pos)) (Some (vy pos)) (Some (vz pos)) (Some (vx vel)) (Some (vy vel)) (Some (vz vel)) (Some rho)) W2 (or_introl eq_refl)) as (qs & E' & A').
    rewrite E'. exists (q :: qs). rewrite <- app_assoc. split; [reflexivity|].
    rewrite app_length in A'. cbn [List.length] in A'. replace (List.length acc + 1)%nat with (S (List.length acc)) in A' by lia.
    apply (restored_cons R (fun _ d => d = rho) (fun p => p_fluidType p)); auto.
Qed.
Lemma csv_round_trip dbg rho t ps : time_like t -> Forall writable ps -> Z.of_nat (List.length ps) <= int_max ->
  exists t' ps', csv_load cell_int cell_dbl dbg rho (toCsv t ps) = Ok (t', ps') /\ as_printed t t'
    /\ restored R (fun _ d => d = rho) (fun p => p_fluidType p) ps ps'.
Proof.
  intros T W L. unfold csv_load, toCsv. rewrite lines_of_text; cycle 1.
  { constructor; [apply show_no_nl|]. constructor; [apply showZ_no_nl|]. constructor; [repeat constructor|].
    apply Forall_forall. intros l Hl. apply in_map_iff in Hl. destruct Hl as (p & <- & _). apply csv_row_no_nl. }
  destruct (stod_show t T) as (t' & E1 & A1). destruct (stod_count (Z.of_nat (List.length ps)) ltac:(lia)) as (y & E2).
  rewrite E1, E2. cbn [bind]. rewrite csv_header_read. cbn [bind].
  destruct (csv_rows_spec dbg rho ps [] (mkCv None (Some 0) None None None None None None (Some (@nneg F64 (nofZ 1)))) W) as (qs & E & A).
  { right. eexists. split; [reflexivity|]. vm_compute. reflexivity. }
  rewrite E. cbn [bind app]. exists t', qs. split; [reflexivity|]. split; [exact A1|]. exact A.
Qed.
End CsvTrip.
Lemma csv_fixed_point t t' ps ps' (R : f64 -> f64 -> Prop) dens : (forall x y, normal x -> R x y -> reads_as x y) ->
  normal t -> as_printed t t' -> Forall (fun p => all3 normal (p_pos p) /\ all3 normal (p_vel p)) ps ->
  restored R dens (fun p => p_fluidType p) ps ps' -> toCsv t' ps' = toCsv t ps.
Proof.
  intros RR N A W Re. unfold toCsv. rewrite (show_reread t t' N A). rewrite (proj1 Re).
  rewrite (restored_map csv_row R dens (fun p => p_fluidType p) 0 ps ps' Re); [reflexivity|].
  intros i p pos vel d E A1 A2 _. rewrite Forall_forall in W. destruct (W p (nth_error_In _ _ E)) as [N1 N2].
  unfold csv_row. cbn [newParticle p_type p_pos p_vel p_fluidType].
  assert (K : forall v w, all3 normal v -> rel3 R v w -> rel3 reads_as v w).
  { intros v w (B1 & B2 & B3) (C1 & C2 & C3). split; [|split]; now apply RR. }
  rewrite (show3_stable comma (p_pos p) pos), (show3_stable comma (p_vel p) vel); auto using normal_finite3.
Qed.
