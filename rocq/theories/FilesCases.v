(** * Files: malformed input, and concrete files for the examples *)
From Coq Require Import Reals Lra PeanoNat Permutation.
From Flocq Require Import Core.Zaux Core.Raux Core.Defs Core.Generic_fmt Core.Float_prop Core.Digits.
From Verif Require Import XmlFacts.
From Verif Require Export SpecXml BinFacts CsvFacts.
Open Scope Z_scope.

(** ** rows missing at the end of a prof file *)
Lemma prof_rows_more dbg rho k : forall ps acc, Forall writable ps ->
  exists qs, prof_rows dbg rho (List.length ps + k) (mkStream (nl :: lines_text (map prof_row ps)) false) acc
    = prof_rows dbg rho k (mkStream [nl] false) (acc ++ qs).
Proof.
  induction ps as [|p ps IH]; intros acc W.
  - exists []. cbn [List.length Nat.add map]. rewrite app_nil_r. reflexivity.
  - inversion_clear W as [|? ? W1 W2]. destruct W1 as (T & _ & F1 & F2). cbn [List.length Nat.add prof_rows map]. rewrite lines_text_cons, prof_row_app.
    pose proof (extract_int [nl] (p_type p) (sp :: show3 sp (p_pos p) ++ (sp :: show3 sp (p_vel p) ++ nl :: lines_text (map prof_row ps))) ltac:(repeat constructor) T eq_refl) as E1.
    destruct (extract3_show [sp] (p_pos p) (sp :: show3 sp (p_vel p) ++ nl :: lines_text (map prof_row ps)) ltac:(repeat constructor) F1 eq_refl) as (pos & E2 & A2).
    destruct (extract3_show [sp] (p_vel p) (nl :: lines_text (map prof_row ps)) ltac:(repeat constructor) F2 eq_refl) as (vel & E3 & A3).
    cbn [app] in E1, E2, E3. rewrite E1, E2, E3. cbn [stored3 stored bind or_else].
    destruct pos as [px py pz], vel as [wx wy wz]. cbn [vx vy vz]. rewrite add_next. cbn [bind].
    destruct (IH (acc ++ [newParticle (Z.of_nat (List.length acc)) (p_type p) (mkV px py pz) (mkV wx wy wz) rho 0]) W2) as (qs & E).
    exists (newParticle (Z.of_nat (List.length acc)) (p_type p) (mkV px py pz) (mkV wx wy wz) rho 0 :: qs). rewrite E, <- app_assoc. reflexivity.
Qed.
Lemma prof_truncated dbg rho t n ps : finite t -> Forall writable ps -> Z.of_nat (List.length ps) < n <= int_max ->
  prof_load dbg rho (lines_text (show t :: showZ n :: map prof_row ps)) = Undef Uninit.
Proof.
  intros F W L. unfold prof_load. rewrite !lines_text_cons.
  destruct (extract_double [] t (nl :: showZ n ++ nl :: lines_text (map prof_row ps)) ltac:(constructor) F eq_refl) as (t' & E1 & A1).
  assert (I : in_int n = true).
  { unfold in_int. rewrite andb_true_iff, !Z.leb_le. unfold int_min. lia. }
  pose proof (extract_int [nl] n (nl :: lines_text (map prof_row ps)) ltac:(repeat constructor) I eq_refl) as E2.
  cbn [app] in E1, E2. rewrite E1, E2. cbn [or_else].
  replace (Z.to_nat n) with (List.length ps + S (Z.to_nat n - List.length ps - 1))%nat by lia.
  destruct (prof_rows_more dbg rho (S (Z.to_nat n - List.length ps - 1)) ps [] W) as (qs & E). rewrite E. cbn [app]. generalize (Z.to_nat n - List.length ps - 1)%nat as k.
  intros k. reflexivity.
Qed.
(** nothing at all is accepted, too *)
Lemma prof_blank dbg rho ws : Forall (fun c => is_space c = true) ws -> prof_load dbg rho ws = Ok (B754_nan, []).
Proof.
  intros H. assert (E : skip_ws ws = []). { induction H as [|c l C _ IH]; [reflexivity|]. cbn [skip_ws]. now rewrite C. }
  unfold prof_load, extract. cbn [st_rest st_fail]. rewrite E. reflexivity.
Qed.

(** ** a CSV file without one of the columns it needs *)
Section Missing.
Variable cell_int : list ascii -> option Z.
Variable cell_dbl : list ascii -> option f64.
Lemma read_cell_ok {A} (conv : list ascii -> option A) h r name old : NoDup h ->
  (forall c, In (lit name, c) (combine h r) -> conv c <> None) ->
  exists a, read_cell conv (under (lit name) h r) old = Ok a /\ (~ In (lit name) h -> a = old).
Proof.
  intros D C. destruct (in_dec (list_eq_dec ascii_dec) (lit name) h) as [I|I].
  - destruct (under (lit name) h r) as [c|] eqn:U; cbn [read_cell].
    + apply under_in in U; [|exact D]. specialize (C c U). destruct (conv c) as [a|]; [|congruence]. exists (Some a). split; [reflexivity|]. tauto.
    + exists old. auto.
  - rewrite under_none by exact I. exists old. auto.
Qed.
Lemma csv_missing dbg rho tl cl t c h name r rows : no nl tl -> no nl cl -> stod tl = Ok t -> stod cl = Ok c ->
  h <> [] -> NoDup h -> incl h known -> In name required -> ~ In name h ->
  row_ok cell_int cell_dbl h r -> Forall (Forall plain) rows ->
  csv_load cell_int cell_dbl dbg rho (csv_text tl cl h (r :: rows)) = Undef Uninit.
Proof.
  intros N1 N2 E1 E2 NE D K Q M (L & P & C) W.
  rewrite (csv_text_load cell_int cell_dbl dbg rho tl cl t c h (r :: rows)) by (auto; now constructor). cbn [map csv_rows].
  assert (CI : forall name, In (lit name) (map lit ["type"; "fluidType"]%string) -> forall c, In (lit name, c) (combine h r) -> cell_int c <> None).
  { intros nm I c' J. now apply (C (lit nm) c' J). }
  assert (CD : forall name, In (lit name) (map lit ["x"; "y"; "z"; "vx"; "vy"; "vz"; "density"]%string) -> forall c, In (lit name, c) (combine h r) -> cell_dbl c <> None).
  { intros nm I c' J. now apply (C (lit nm) c' J). }
  set (v := mkCv _ _ _ _ _ _ _ _ _).
  destruct (read_cell_ok cell_int h r "type" (cv_type v) D (CI "type"%string ltac:(inn))) as (ty & F1 & M1).
  destruct (read_cell_ok cell_int h r "fluidType" (cv_ftype v) D (CI "fluidType"%string ltac:(inn))) as (f & F2 & M2).
  destruct (read_cell_ok cell_dbl h r "x" (cv_x v) D (CD "x"%string ltac:(inn))) as (x & F3 & M3).
  destruct (read_cell_ok cell_dbl h r "y" (cv_y v) D (CD "y"%string ltac:(inn))) as (y & F4 & M4).
  destruct (read_cell_ok cell_dbl h r "z" (cv_z v) D (CD "z"%string ltac:(inn))) as (z & F5 & M5).
  destruct (read_cell_ok cell_dbl h r "vx" (cv_vx v) D (CD "vx"%string ltac:(inn))) as (ux & F6 & M6).
  destruct (read_cell_ok cell_dbl h r "vy" (cv_vy v) D (CD "vy"%string ltac:(inn))) as (uy & F7 & M7).
  destruct (read_cell_ok cell_dbl h r "vz" (cv_vz v) D (CD "vz"%string ltac:(inn))) as (uz & F8 & M8).
  destruct (read_cell_ok cell_dbl h r "density" (cv_dens v) D (CD "density"%string ltac:(inn))) as (d & F9 & M9).
  assert (FD : d <> None).
  { intros ->. destruct (in_dec (list_eq_dec ascii_dec) (lit "density") h) as [I|I]; [|specialize (M9 I); discriminate M9].
    destruct (read_cell_col cell_dbl h r "density" (cv_dens v) D L (CD "density"%string ltac:(inn)) I) as (d & Ed & _). rewrite F9 in Ed. discriminate Ed. }
  assert (FF : f <> None).
  { intros ->. destruct (in_dec (list_eq_dec ascii_dec) (lit "fluidType") h) as [I|I]; [|specialize (M2 I); discriminate M2].
    destruct (read_cell_col cell_int h r "fluidType" (cv_ftype v) D L (CI "fluidType"%string ltac:(inn)) I) as (d' & Ed & _). rewrite F2 in Ed. discriminate Ed. }
  unfold read_row. cbv zeta. rewrite (cells_row h r) by assumption. rewrite L, Nat.eqb_refl. cbn [negb].
  rewrite F1; cbn [bind]. rewrite F2; cbn [bind]. rewrite F3; cbn [bind]. rewrite F4; cbn [bind]. rewrite F5; cbn [bind]. rewrite F6; cbn [bind]. rewrite F7; cbn [bind].
  rewrite F8; cbn [bind]. rewrite F9; cbn [bind]. cbn [cv_x cv_y cv_z cv_vx cv_vy cv_vz cv_dens cv_type cv_ftype].
  destruct d as [d|]; [|congruence]. destruct f as [f|]; [|congruence].
  unfold required in Q. cbn [map In] in Q. cbn [cv_x cv_y cv_z cv_vx cv_vy cv_vz cv_type v] in *.
  destruct Q as [Q|[Q|[Q|[Q|[Q|[Q|[Q|[]]]]]]]]; subst name.
  - rewrite (M1 M). destruct x, y, z, ux, uy, uz; reflexivity.
  - rewrite (M3 M). destruct y, z, ux, uy, uz, ty; reflexivity.
  - rewrite (M4 M). destruct x, z, ux, uy, uz, ty; reflexivity.
  - rewrite (M5 M). destruct x, y, ux, uy, uz, ty; reflexivity.
  - rewrite (M6 M). destruct x, y, z, uy, uz, ty; reflexivity.
  - rewrite (M7 M). destruct x, y, z, ux, uz, ty; reflexivity.
  - rewrite (M8 M). destruct x, y, z, ux, uy, ty; reflexivity.
Qed.
End Missing.

(** ** a concrete reader of cells *)
Definition int_cell (l : list ascii) : option Z := match get_int l with (z, true, []) => Some z | _ => None end.
Definition dbl_cell (l : list ascii) : option f64 := match get_double l with (y, true, []) => Some y | _ => None end.
Lemma int_cell_ok z : in_int z = true -> int_cell (showZ z) = Some z.
Proof. intros H. unfold int_cell. rewrite <- (app_nil_r (showZ z)), (get_int_showZ z [] H I). reflexivity. Qed.
Lemma dbl_cell_ok x : finite x -> exists y, dbl_cell (show x) = Some y /\ as_printed x y.
Proof. intros H. destruct (get_double_show x [] H I) as (y & E & A). exists y. unfold dbl_cell. rewrite <- (app_nil_r (show x)), E. auto. Qed.

(** ** concrete numbers *)
Definition above (k : Z) (x : f64) : bool := match x with B754_zero _ => true | B754_finite _ _ e _ => k <=? e | _ => false end.
Lemma above_size k (x : f64) : above k x = true -> is_finite x = true /\ (B2R x = 0 \/ bpow radix2 k <= Rabs (B2R x))%R.
Proof.
  destruct x as [s| | |s m e B]; cbn [above]; intros H; try discriminate H; (split; [reflexivity|]).
  - now left.
  - right. apply Z.leb_le in H. apply Rle_trans with (bpow radix2 e); [now apply bpow_le|]. cbn [B2R]. rewrite <- F2R_Zabs, abs_cond_Zopp.
    apply bpow_le_F2R. reflexivity.
Qed.
Lemma normal_above x : above (-1022) x = true -> normal x.
Proof. apply above_size. Qed.
Lemma time_above x : above (-900) x = true -> time_like x.
Proof.
  intros H. destruct (above_size _ _ H) as [F K]. split; [exact F|]. destruct K as [K|K]; [now left|]. right. apply Rle_trans with (2 := K).
  change (-900) with (- (900)). change (-300) with (- (300)). rewrite !bpow_opp. apply Rinv_le; [apply bpow_gt_0|].
  rewrite <- (IZR_Zpower radix2), ten_pow by lia. apply IZR_le. vm_compute. discriminate.
Qed.
Definition fz (z : Z) : f64 := @nofZ F64 z.
Definition fq (a b : Z) : f64 := @ndiv F64 (fz a) (fz b).
Definition fv (a b c d e f : Z) : @vec F64 := @mkV F64 (fq a b) (fq c d) (fq e f).
Lemma all3_above k v : above k (vx v) && above k (vy v) && above k (vz v) = true -> all3 (fun x => above k x = true) v.
Proof. rewrite !andb_true_iff. intros ((A & B) & C). now repeat split. Qed.

(** a fluid particle and a wall particle, neither on short decimals *)
Definition drop : particle := @set_nd F64 (newParticle 0 0 (fv 1 3 (-2) 7 0 1) (fv (-1) 10000000 22 7 123456789 1000) (fz 1000) 0) (fq 13 2).
Definition brick : particle := @set_nd F64 (newParticle 1 2 (fv (-1) 3 (-1) 9 1 1000) (fv 0 1 0 1 0 1) (fz 1000) 5) (fq 20 3).
Definition pair : list particle := [drop; brick].
Definition clock : f64 := fq 1 7.
Definition ref_density : f64 := fq 34 5.
Definition check (p : particle) : bool :=
  in_int (p_type p) && in_int (p_fluidType p)
  && (above (-900) (vx (p_pos p)) && above (-900) (vy (p_pos p)) && above (-900) (vz (p_pos p)))
  && (above (-900) (vx (p_vel p)) && above (-900) (vy (p_vel p)) && above (-900) (vz (p_vel p)))
  && above (-900) (p_nd p) && above (-900) (@ndiv F64 (p_nd p) ref_density).
Lemma above_le x : above (-900) x = true -> above (-1022) x = true.
Proof. destruct x; cbn [above]; auto. rewrite !Z.leb_le. lia. Qed.
Lemma check_ok p : check p = true -> exportable ref_density p /\ writable p /\ (all3 normal (p_pos p) /\ all3 normal (p_vel p)).
Proof.
  unfold check. rewrite !andb_true_iff. intros (((((A & B) & ((C1 & C2) & C3)) & ((D1 & D2) & D3)) & E) & G).
  assert (F : forall x, above (-900) x = true -> finite x) by (intros x H; apply (above_size _ _ H)).
  assert (N : forall x, above (-900) x = true -> normal x) by (intros x H; now apply normal_above, above_le).
  assert (W : writable p) by (repeat split; auto). split; [|split; [exact W|repeat split; apply N; assumption]]. split; [exact W|auto].
Qed.
Lemma pair_check : forallb check pair = true. Proof. vm_compute. reflexivity. Qed.
Lemma pair_ok : Forall (exportable ref_density) pair /\ Forall writable pair /\ Forall (fun p => all3 normal (p_pos p) /\ all3 normal (p_vel p)) pair.
Proof.
  pose proof pair_check as H. rewrite forallb_forall in H. repeat split; apply Forall_forall; intros p I; specialize (H p I); apply check_ok in H; tauto.
Qed.
Lemma clock_above : above (-900) clock = true. Proof. vm_compute. reflexivity. Qed.
Lemma clock_time : time_like clock. Proof. apply time_above, clock_above. Qed.
Lemma clock_normal : normal clock. Proof. apply normal_above, above_le, clock_above. Qed.
Lemma clock_finite : finite clock. Proof. apply clock_normal. Qed.
Lemma pair_size : Z.of_nat (List.length pair) * 3 <= int_max. Proof. vm_compute. discriminate. Qed.
Lemma pair_ints : Forall (fun p => in_int (p_type p) = true /\ in_int (p_fluidType p) = true) pair.
Proof. destruct pair_ok as (_ & W & _). eapply Forall_impl; [|exact W]. intros p (A & B & _). auto. Qed.

(** ** witnesses *)
(** a subnormal time: 202403 * 2^-1074 *)
Definition speck : f64 := binary_normalize 53 1024 eq_refl eq_refl mode_NE 202403 (-1074) false.
Definition text_neqb (a b : list ascii) : bool := negb (text_eqb a b).
Lemma text_neqb_neq a b : text_neqb a b = true -> a <> b.
Proof. unfold text_neqb. rewrite negb_true_iff. intros H ->. assert (text_eqb b b = true) by now apply text_eqb_iff. congruence. Qed.
Definition again (o : outcome (f64 * list particle)) (file : list ascii) : bool :=
  match o with Ok (t, ps) => text_neqb (toProf t ps) file | _ => false end.
Lemma speck_again : again (prof_load false (fz 1000) (toProf speck [])) (toProf speck []) = true. Proof. vm_compute. reflexivity. Qed.
Lemma speck_finite : finite speck. Proof. vm_compute. reflexivity. Qed.
Definition throws {A} (o : outcome A) : bool := match o with Throw => true | _ => false end.
Lemma throws_ok {A} (o : outcome A) : throws o = true -> o = Throw. Proof. destruct o; try discriminate; reflexivity. Qed.
Definition unset {A} (o : outcome A) : bool := match o with Undef Uninit => true | _ => false end.
Lemma unset_ok {A} (o : outcome A) : unset o = true -> o = Undef Uninit. Proof. destruct o as [|[]| | | |]; try discriminate; reflexivity. Qed.
Lemma speck_csv : csv_load int_cell dbl_cell false (fz 1000) (toCsv speck []) = Throw. Proof. apply throws_ok. vm_compute. reflexivity. Qed.
Lemma speck_vtu : vtu_load false (fz 1000) (toVtuAscii false speck (fz 1) []) = Throw. Proof. apply throws_ok. vm_compute. reflexivity. Qed.
(** an infinite velocity *)
Definition runaway : particle := newParticle 0 0 (fv 0 1 0 1 0 1) (@mkV F64 (B754_infinity false) (fz 0) (fz 0)) (fz 1000) 0.
Lemma runaway_prof : prof_load false (fz 1000) (toProf clock [runaway]) = Undef Uninit. Proof. apply unset_ok. vm_compute. reflexivity. Qed.
(** particles without neighbours and a reference density of zero *)
Definition lone : particle := newParticle 0 0 (fv 1 2 1 2 0 1) (fv 0 1 0 1 0 1) (fz 1000) 0.
Lemma lone_vtu : vtu_load false (fz 1000) (toVtuAscii false clock (fz 0) [lone]) = Throw. Proof. apply throws_ok. vm_compute. reflexivity. Qed.
(** density of a VTU round trip: zero for a particle that has no number density yet *)
Definition thin (o : outcome (f64 * list particle)) : bool :=
  match o with Ok (_, [p]) => match p_dens p with B754_zero _ => true | _ => false end | _ => false end.
Lemma lone_thin : thin (vtu_load false (fz 1000) (toVtuAscii false clock (fz 1) [lone])) = true. Proof. vm_compute. reflexivity. Qed.
(** a CSV file with its columns in another order, with a density *)
Definition mixed : list (list ascii) := map lit ["density"; "vz"; "y"; "x"; "z"; "vx"; "type"; "vy"]%string.
Definition mixed_rows : list (list (list ascii)) :=
  [map lit ["-1"; "0"; "0.25"; "0.5"; "0"; "1e-3"; "2"; "7"]%string; map lit ["998.5"; "0"; "0.25"; "0.75"; "0"; "1e-3"; "0"; "7"]%string].
Definition usual : list (list ascii) := map lit ["type"; "x"; "y"; "z"; "vx"; "vy"; "vz"; "density"]%string.
Definition usual_rows : list (list (list ascii)) :=
  [map lit ["2"; "0.5"; "0.25"; "0"; "1e-3"; "7"; "0"; "-1"]%string; map lit ["0"; "0.75"; "0.25"; "0"; "1e-3"; "7"; "0"; "998.5"]%string].
(** and one without the column z *)
Definition flat : list (list ascii) := map lit ["type"; "x"; "y"; "vx"; "vy"; "vz"]%string.
Definition flat_rows : list (list (list ascii)) := [map lit ["0"; "0.5"; "0.25"; "0"; "0"; "0"]%string].

Definition inb (a : list ascii) (l : list (list ascii)) : bool := existsb (text_eqb a) l.
Lemma header_ok_b h : no_dup h && forallb (fun a => inb a known) h && forallb (fun a => inb a h) required = true -> header_ok h.
Proof.
  rewrite !andb_true_iff, !forallb_forall. intros ((A & B) & C). split; [now apply no_dup_iff|]. split; intros a I; [specialize (B a I)|specialize (C a I)]; now apply exists_text.
Qed.
Definition plain_b (l : list ascii) : bool := forallb (fun c => negb (Ascii.eqb c comma) && negb (Ascii.eqb c nl)) l.
Lemma plain_b_ok l : plain_b l = true -> plain l.
Proof.
  unfold plain_b. rewrite forallb_forall. intros H. split; intros I; apply H in I; rewrite andb_true_iff, !negb_true_iff in I; destruct I as [I J].
  - rewrite Ascii.eqb_refl in I. discriminate I.
  - rewrite Ascii.eqb_refl in J. discriminate J.
Qed.
Definition conv_b (nc : list ascii * list ascii) : bool :=
  (negb (inb (fst nc) (map lit ["type"; "fluidType"]%string)) || match int_cell (snd nc) with Some _ => true | None => false end)
  && (negb (inb (fst nc) (map lit ["x"; "y"; "z"; "vx"; "vy"; "vz"; "density"]%string)) || match dbl_cell (snd nc) with Some _ => true | None => false end).
Lemma row_ok_b h r : (List.length r =? List.length h)%nat && forallb plain_b r && forallb conv_b (combine h r) = true -> row_ok int_cell dbl_cell h r.
Proof.
  rewrite !andb_true_iff. intros ((A & B) & C). apply Nat.eqb_eq in A. rewrite forallb_forall in B, C. split; [exact A|].
  split; [apply Forall_forall; intros a I; now apply plain_b_ok, B|]. intros name c I. specialize (C _ I). unfold conv_b in C. cbn [fst snd] in C.
  rewrite andb_true_iff, !orb_true_iff, !negb_true_iff in C. destruct C as [C1 C2]. split; intros J E.
  - apply exists_text in J. destruct C1 as [C1|C1]; [unfold inb in C1; congruence|]. rewrite E in C1. discriminate.
  - apply exists_text in J. destruct C2 as [C2|C2]; [unfold inb in C2; congruence|]. rewrite E in C2. discriminate.
Qed.
Lemma mixed_ok : header_ok mixed /\ Forall (row_ok int_cell dbl_cell mixed) mixed_rows.
Proof.
  split; [apply header_ok_b; vm_compute; reflexivity|]. unfold mixed_rows. apply Forall_cons; [apply row_ok_b; vm_compute; reflexivity|].
  apply Forall_cons; [apply row_ok_b; vm_compute; reflexivity|apply Forall_nil].
Qed.
Lemma usual_ok : header_ok usual. Proof. apply header_ok_b; vm_compute; reflexivity. Qed.
Lemma plain_all l : forallb plain_b l = true -> Forall plain l.
Proof. rewrite forallb_forall. intros H. apply Forall_forall. intros a I. now apply plain_b_ok, H. Qed.
Lemma mixed_usual : Forall2 (fun r r' => Forall plain r /\ Forall plain r' /\ List.length r = List.length mixed /\ List.length r' = List.length usual
                       /\ Permutation (combine mixed r) (combine usual r')) mixed_rows usual_rows.
Proof.
  assert (P : forall r r' : list (list ascii), r = map (fun i => nth i r' []) [7; 6; 2; 1; 3; 4; 0; 5]%nat -> List.length r' = 8%nat ->
    Permutation (combine mixed r) (combine usual r')).
  { intros r r' -> L. destruct r' as [|a0 [|a1 [|a2 [|a3 [|a4 [|a5 [|a6 [|a7 [|]]]]]]]]]; try discriminate L. unfold mixed, usual. cbn [map nth combine].
    set (n0 := (lit "type", a0)). set (n1 := (lit "x", a1)). set (n2 := (lit "y", a2)). set (n3 := (lit "z", a3)).
    set (n4 := (lit "vx", a4)). set (n5 := (lit "vy", a5)). set (n6 := (lit "vz", a6)). set (n7 := (lit "density", a7)).
    apply Permutation_sym.
    apply (Permutation_cons_app [n7; n6; n2; n1; n3; n4] [n5]). apply (Permutation_cons_app [n7; n6; n2] [n3; n4; n5]).
    apply (Permutation_cons_app [n7; n6] [n3; n4; n5]). apply (Permutation_cons_app [n7; n6] [n4; n5]). apply (Permutation_cons_app [n7; n6] [n5]).
    apply (Permutation_cons_app [n7; n6] []). apply perm_swap. }
  constructor; [|constructor; [|constructor]]; (split; [apply plain_all; vm_compute; reflexivity|]; split; [apply plain_all; vm_compute; reflexivity|]; split; [reflexivity|]; split; [reflexivity|]; apply P; reflexivity).
Qed.
Definition zero_text : list ascii := lit "0".
Lemma zero_text_ok : no nl zero_text /\ stod zero_text = Ok (fz 0).
Proof. split; [apply no_b; reflexivity|reflexivity]. Qed.
Lemma flat_ok : flat <> [] /\ NoDup flat /\ incl flat known /\ In (lit "z") required /\ ~ In (lit "z") flat /\ Forall (row_ok int_cell dbl_cell flat) flat_rows.
Proof.
  split; [discriminate|]. split; [apply no_dup_iff; vm_compute; reflexivity|]. split. { intros a I. apply exists_text. revert a I. apply (proj1 (forallb_forall (fun a => inb a known) flat)). vm_compute. reflexivity. }
  split; [apply exists_text; vm_compute; reflexivity|]. split. { intros I. apply exists_text in I. vm_compute in I. discriminate. }
  apply Forall_cons; [apply row_ok_b; vm_compute; reflexivity|apply Forall_nil].
Qed.

(** ** what the property file states *)
Lemma lone_writable : writable lone. Proof. repeat split; vm_compute; reflexivity. Qed.
Lemma fz_1000 : B2R (fz 1000) = 1000%R.
Proof.
  assert (E : B2SF (fz 1000) = SpecFloat.S754_finite false 8796093022208000 (-43)) by (vm_compute; reflexivity).
  destruct (fz 1000) as [s|s| |s m e B]; try discriminate E. cbn [B2SF] in E. injection E as -> -> ->. cbn [B2R cond_Zopp]. unfold F2R. cbn [Fnum Fexp bpow].
  change (Z.pow_pos radix2 43) with 8796093022208. lra.
Qed.
Lemma lone_density : exists rho t n0 p t' p', time_like t /\ exportable n0 p /\
  vtu_load false rho (toVtuAscii false t n0 [p]) = Ok (t', [p']) /\ B2R (p_dens p') = 0%R /\ B2R rho = 1000%R.
Proof.
  exists (fz 1000), clock, (fz 1), lone. pose proof lone_thin as T. destruct (vtu_load false (fz 1000) (toVtuAscii false clock (fz 1) [lone])) as [[t' [|p' [|]]]|u| |e| |]; try discriminate T.
  exists t', p'. split; [exact clock_time|]. split. { split; [exact lone_writable|]. split; vm_compute; reflexivity. }
  split; [reflexivity|]. split; [|exact fz_1000]. unfold thin in T. destruct (p_dens p'); try discriminate T. reflexivity.
Qed.
Lemma loaded_density dbg rho big t n0 ps : time_like t -> Forall (exportable n0) ps ->
  exists t' ps', vtu_load dbg rho (toVtuAscii big t n0 ps) = Ok (t', ps') /\
    forall i p, nth_error ps i = Some p -> (0 <= B2R (p_nd p))%R -> exists q, nth_error ps' i = Some q /\ as_printed (p_nd p) (p_dens q).
Proof.
  intros T W. destruct (vtu_round_trip dbg rho big t n0 ps T W) as (t' & ps' & E & _ & _ & R). exists t', ps'. split; [exact E|].
  intros i p En H. destruct (R i p En) as (pos & vel & d & Eq & _ & _ & y & A & D). eexists. split; [exact Eq|]. cbn [newParticle p_dens].
  assert (K : @nle F64 (B754_zero false) y = true).
  { apply Fle_fin; [reflexivity|apply A|]. assert (P : (0 <= B2R y)%R); [|exact P]. destruct A as (_ & _ & A). rewrite A, <- round64_0. apply round64_le.
    assert (Z6 : round6 0 = 0%R) by (unfold round6; apply round_0, valid_rnd_N). rewrite <- Z6. now apply round6_le. }
  rewrite K in D. now subst d.
Qed.
Lemma brick_nd : (0 <= B2R (p_nd brick))%R.
Proof.
  assert (E : match p_nd brick with B754_finite false _ _ _ => true | _ => false end = true) by (vm_compute; reflexivity).
  destruct (p_nd brick) as [s|s| |[|] m e B]; try discriminate E. cbn [B2R cond_Zopp]. apply F2R_ge_0. discriminate.
Qed.
Lemma pair_normal : Forall (fun p => writable p /\ all3 normal (p_pos p) /\ all3 normal (p_vel p)) pair.
Proof. destruct pair_ok as (_ & W & N). rewrite Forall_forall in *. auto. Qed.
Lemma dbl_cell_normal x : finite x -> exists y, dbl_cell (show x) = Some y /\ (normal x -> reads_as x y).
Proof. intros F. destruct (dbl_cell_ok x F) as (y & E & A). exists y. split; [exact E|]. intros N. now apply printed_reads. Qed.
Lemma prof_again dbg rho t ps : normal t -> Forall (fun p => writable p /\ all3 normal (p_pos p) /\ all3 normal (p_vel p)) ps ->
  Z.of_nat (List.length ps) <= int_max ->
  exists t' ps', prof_load dbg rho (toProf t ps) = Ok (t', ps') /\ toProf t' ps' = toProf t ps.
Proof.
  intros N W L. destruct (prof_round_trip dbg rho t ps (proj1 N)) as (t' & ps' & E & A & R); [apply (Forall_impl _ (fun p H => proj1 H) W)|exact L|].
  exists t', ps'. split; [exact E|]. apply (prof_fixed_point t t' ps ps' (fun _ d => d = rho)); auto. apply (Forall_impl _ (fun p H => proj2 H) W).
Qed.
Lemma csv_again cell_int cell_dbl dbg rho t ps :
  (forall z, in_int z = true -> cell_int (showZ z) = Some z) ->
  (forall x, finite x -> exists y, cell_dbl (show x) = Some y /\ (normal x -> reads_as x y)) ->
  time_like t -> Forall (fun p => writable p /\ all3 normal (p_pos p) /\ all3 normal (p_vel p)) ps -> Z.of_nat (List.length ps) <= int_max ->
  exists t' ps', csv_load cell_int cell_dbl dbg rho (toCsv t ps) = Ok (t', ps') /\ toCsv t' ps' = toCsv t ps.
Proof.
  intros H1 H2 T W L. destruct (csv_round_trip cell_int cell_dbl (fun x y => normal x -> reads_as x y) H1 H2 dbg rho t ps T) as (t' & ps' & E & A & R);
    [apply (Forall_impl _ (fun p H => proj1 H) W)|exact L|].
  exists t', ps'. split; [exact E|]. apply (csv_fixed_point t t' ps ps' (fun x y => normal x -> reads_as x y) (fun _ d => d = rho)); auto.
  - destruct T as [F T]. split; [exact F|]. destruct T as [T|T]; [now left|]. right. apply Rle_trans with (2 := T). apply time_normal.
  - apply (Forall_impl _ (fun p H => proj2 H) W).
Qed.
Lemma speck_changes : exists t t' ps', finite t /\ prof_load false (fz 1000) (toProf t []) = Ok (t', ps') /\ toProf t' ps' <> toProf t [].
Proof.
  exists speck. pose proof speck_again as A. destruct (prof_load false (fz 1000) (toProf speck [])) as [[t' ps']|u| |e| |]; try discriminate A.
  exists t', ps'. split; [exact speck_finite|]. split; [reflexivity|]. now apply text_neqb_neq.
Qed.
Lemma short_file : exists t n ps, finite t /\ Forall writable ps /\ Z.of_nat (List.length ps) < n /\
  prof_load false (fz 1000) (lines_text (show t :: showZ n :: map prof_row ps)) = Undef Uninit.
Proof.
  exists clock, 3, pair. split; [exact clock_finite|]. split; [apply pair_ok|]. split; [reflexivity|]. apply prof_truncated; [exact clock_finite|apply pair_ok|].
  split; [reflexivity|discriminate].
Qed.
Lemma flat_file : exists h rows name, header_ok (name :: h) /\ ~ In name h /\ Forall (row_ok int_cell dbl_cell h) rows /\
  csv_load int_cell dbl_cell false (fz 1000) (csv_text zero_text zero_text h rows) = Undef Uninit.
Proof.
  destruct flat_ok as (F1 & F2 & F3 & F4 & F5 & F6), zero_text_ok as (Z1 & Z2). exists flat, flat_rows, (lit "z").
  split; [apply header_ok_b; vm_compute; reflexivity|]. split; [exact F5|]. split; [exact F6|]. unfold flat_rows in *. inversion_clear F6.
  apply (csv_missing int_cell dbl_cell false (fz 1000) zero_text zero_text (fz 0) (fz 0) flat (lit "z")); auto.
Qed.

(** numerals *)
Lemma brick_nd_text : double_text (p_nd brick) (lit "6.66667").
Proof. replace (lit "6.66667") with (show (p_nd brick)) by (vm_compute; reflexivity). apply show_text. Qed.
Lemma brick_pos_text : vector_text (p_pos brick) (lit "-0.333333 -0.111111 0.001").
Proof. replace (lit "-0.333333 -0.111111 0.001") with (show3 sp (p_pos brick)) by (vm_compute; reflexivity). apply show3_text. Qed.
