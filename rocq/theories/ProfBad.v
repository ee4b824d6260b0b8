(** * Prof files in which a number is not a number *)
From Coq Require Import Reals Lra PeanoNat.
From Verif Require Export FilesCases.
Open Scope Z_scope.

Lemma prof_rows_tail dbg rho k tail : forall ps acc, Forall writable ps ->
  exists qs, prof_rows dbg rho (List.length ps + k) (mkStream (nl :: lines_text (map prof_row ps) ++ tail) false) acc
    = prof_rows dbg rho k (mkStream (nl :: tail) false) (acc ++ qs) /\
    Forall2 (fun p q => p_type q = p_type p /\ rel3 as_printed (p_pos p) (p_pos q) /\ rel3 as_printed (p_vel p) (p_vel q)) ps qs.
Proof.
  induction ps as [|p ps IH]; intros acc W.
  - exists []. cbn [List.length Nat.add map]. rewrite app_nil_r. split; [reflexivity|constructor].
  - inversion_clear W as [|? ? W1 W2]. destruct W1 as (T & _ & F1 & F2). cbn [List.length Nat.add prof_rows map]. rewrite lines_text_cons, <- app_assoc. cbn [app]. rewrite prof_row_app.
    set (L := lines_text (map prof_row ps) ++ tail) in *.
    pose proof (extract_int [nl] (p_type p) (sp :: show3 sp (p_pos p) ++ (sp :: show3 sp (p_vel p) ++ nl :: L)) ltac:(repeat constructor) T eq_refl) as E1.
    destruct (extract3_show [sp] (p_pos p) (sp :: show3 sp (p_vel p) ++ nl :: L) ltac:(repeat constructor) F1 eq_refl) as (pos & E2 & A2).
    destruct (extract3_show [sp] (p_vel p) (nl :: L) ltac:(repeat constructor) F2 eq_refl) as (vel & E3 & A3).
    cbn [app] in E1, E2, E3. rewrite E1, E2, E3. cbn [stored3 stored bind or_else].
    destruct pos as [px py pz], vel as [wx wy wz]. cbn [vx vy vz]. rewrite add_next. cbn [bind].
    destruct (IH (acc ++ [newParticle (Z.of_nat (List.length acc)) (p_type p) (mkV px py pz) (mkV wx wy wz) rho 0]) W2) as (qs & E & R).
    exists (newParticle (Z.of_nat (List.length acc)) (p_type p) (mkV px py pz) (mkV wx wy wz) rho 0 :: qs). rewrite E, <- app_assoc. split; [reflexivity|].
    constructor; [|exact R]. cbn. auto.
Qed.
Lemma prof_tail dbg rho t n ps tail : finite t -> Forall writable ps -> Z.of_nat (List.length ps) <= n <= int_max ->
  exists t' qs, as_printed t t' /\ prof_load dbg rho (lines_text (show t :: showZ n :: map prof_row ps) ++ tail) =
    bind (prof_rows dbg rho (Z.to_nat n - List.length ps) (mkStream (nl :: tail) false) qs) (fun r => Ok (t', r)) /\
    Forall2 (fun p q => p_type q = p_type p /\ rel3 as_printed (p_pos p) (p_pos q) /\ rel3 as_printed (p_vel p) (p_vel q)) ps qs.
Proof.
  intros F W L. unfold prof_load. rewrite !lines_text_cons, <- !app_assoc. cbn [app]. rewrite <- !app_assoc. cbn [app].
  set (R := lines_text (map prof_row ps) ++ tail).
  destruct (extract_double [] t (nl :: showZ n ++ nl :: R) ltac:(constructor) F eq_refl) as (t' & E1 & A1).
  assert (I : in_int n = true).
  { unfold in_int. rewrite andb_true_iff, !Z.leb_le. unfold int_min. lia. }
  pose proof (extract_int [nl] n (nl :: R) ltac:(repeat constructor) I eq_refl) as E2.
  cbn [app] in E1, E2. rewrite E1, E2. cbn [or_else].
  destruct (prof_rows_tail dbg rho (Z.to_nat n - List.length ps) tail ps [] W) as (qs & E & S). exists t', qs. split; [exact A1|]. split; [|exact S].
  fold R in E. replace (List.length ps + (Z.to_nat n - List.length ps))%nat with (Z.to_nat n) in E by lia. rewrite E. reflexivity.
Qed.

Lemma skip_front ws c r : Forall (fun c => is_space c = true) ws -> is_space c = false -> skip_ws (ws ++ c :: r) = c :: r.
Proof. intros H C. induction H as [|d l D _ IH]; cbn [app skip_ws]; [now rewrite C|]. now rewrite D. Qed.
Lemma get_int_bad c r : is_digit c = false -> is_sign c = false -> exists r', get_int (c :: r) = (0, false, r').
Proof.
  intros D S. unfold get_int. unfold is_sign in S. apply orb_false_iff in S. unfold scan_sign.
  assert (M : Ascii.eqb c "-" = false /\ Ascii.eqb c "+" = false) by tauto. destruct M as [-> ->]. cbn [scan].
  unfold is_digit in D. destruct (char_digit c); [discriminate|]. exists (c :: r). reflexivity.
Qed.
Lemma get_double_bad c r : is_digit c = false -> is_sign c = false -> Ascii.eqb c "." = false -> get_double (c :: r) = (B754_zero false, false, c :: r).
Proof. intros D S P. unfold get_double, token. rewrite S. cbn [collect]. rewrite D, P, S, !andb_false_r. reflexivity. Qed.
(** a row whose type is no number *)
Lemma prof_bad_type dbg rho t n ps ws c r : finite t -> Forall writable ps -> Z.of_nat (List.length ps) < n <= int_max ->
  Forall (fun c => is_space c = true) ws -> is_space c = false -> is_digit c = false -> is_sign c = false ->
  prof_load dbg rho (lines_text (show t :: showZ n :: map prof_row ps) ++ ws ++ c :: r) = Undef Uninit.
Proof.
  intros F W L WS C D S. destruct (prof_tail dbg rho t n ps (ws ++ c :: r) F W) as (t' & qs & _ & E & _); [lia|]. rewrite E.
  destruct (Z.to_nat n - List.length ps)%nat as [|k] eqn:K; [lia|]. cbn [prof_rows].
  unfold extract at 1. cbn [st_fail st_rest]. change (nl :: ws ++ c :: r) with ((nl :: ws) ++ c :: r). rewrite skip_front; [|constructor; [reflexivity|exact WS]|exact C].
  destruct (get_int_bad c r D S) as (r' & ->). reflexivity.
Qed.
(** the last value of the last row is no number *)
Definition last_row (p : particle) : list ascii := showZ (p_type p) ++ sp :: show3 sp (p_pos p) ++ sp :: show (vx (p_vel p)) ++ sp :: show (vy (p_vel p)) ++ [sp].
Lemma prof_bad_last dbg rho t ps p c r : finite t -> Forall writable ps -> writable p -> Z.of_nat (List.length ps) < int_max ->
  is_space c = false -> is_digit c = false -> is_sign c = false -> Ascii.eqb c "." = false ->
  exists t' qs q, prof_load dbg rho (lines_text (show t :: showZ (Z.of_nat (List.length ps) + 1) :: map prof_row ps) ++ last_row p ++ c :: r) = Ok (t', qs ++ [q]) /\
    List.length qs = List.length ps /\ p_type q = p_type p /\ rel3 as_printed (p_pos p) (p_pos q) /\
    as_printed (vx (p_vel p)) (vx (p_vel q)) /\ as_printed (vy (p_vel p)) (vy (p_vel q)) /\ vz (p_vel q) = B754_zero false.
Proof.
  intros F W Wp L C D S P. destruct (prof_tail dbg rho t (Z.of_nat (List.length ps) + 1) ps (last_row p ++ c :: r) F W) as (t' & qs & _ & E & R); [lia|]. rewrite E.
  replace (Z.to_nat (Z.of_nat (List.length ps) + 1) - List.length ps)%nat with 1%nat by lia. cbn [prof_rows].
  destruct Wp as (T & _ & F1 & F2 & F3 & F4). unfold last_row. rewrite <- !app_assoc. cbn [app]. rewrite <- !app_assoc. cbn [app]. rewrite <- !app_assoc. cbn [app]. rewrite <- app_assoc. cbn [app].
  pose proof (extract_int [nl] (p_type p) (sp :: show3 sp (p_pos p) ++ (sp :: show (vx (p_vel p)) ++ (sp :: show (vy (p_vel p)) ++ (sp :: c :: r)))) ltac:(repeat constructor) T eq_refl) as E1.
  destruct (extract3_show [sp] (p_pos p) (sp :: show (vx (p_vel p)) ++ (sp :: show (vy (p_vel p)) ++ (sp :: c :: r))) ltac:(repeat constructor) F1 eq_refl) as (pos & E2 & A2).
  destruct (extract_double [sp] (vx (p_vel p)) (sp :: show (vy (p_vel p)) ++ (sp :: c :: r)) ltac:(repeat constructor) F2 eq_refl) as (ux & E3 & A3).
  destruct (extract_double [sp] (vy (p_vel p)) (sp :: c :: r) ltac:(repeat constructor) F3 eq_refl) as (uy & E4 & A4).
  cbn [app] in E1, E2, E3, E4. rewrite E1, E2. unfold extract3. rewrite E3, E4. unfold extract at 1. cbn [st_fail st_rest].
  change (sp :: c :: r) with ([sp] ++ c :: r). rewrite skip_front; [|constructor; [reflexivity|constructor]|exact C]. rewrite (get_double_bad c r D S P). cbn [stored3 stored bind or_else].
  rewrite add_next. cbn [bind prof_rows]. exists t', qs, (newParticle (Z.of_nat (List.length qs)) (p_type p) (mkV (vx pos) (vy pos) (vz pos)) (mkV (ux : @num F64) (uy : @num F64) (B754_zero false : @num F64)) rho 0).
  split; [reflexivity|]. split; [apply Forall2_length in R; now rewrite R|]. cbn. destruct pos. auto.
Qed.
Lemma no_start c : ~ In c (lit "0123456789+-") -> is_digit c = false /\ is_sign c = false.
Proof.
  intros H. split; apply not_true_iff_false; intros E; apply H; clear H.
  - revert E. destruct c as [[] [] [] [] [] [] [] []]; vm_compute; try discriminate; tauto.
  - revert E. destruct c as [[] [] [] [] [] [] [] []]; vm_compute; try discriminate; tauto.
Qed.
Lemma prof_bad_row dbg rho t n ps ws c r : finite t -> Forall writable ps -> Z.of_nat (List.length ps) < n <= int_max ->
  Forall (fun c => is_space c = true) ws -> is_space c = false -> ~ In c (lit "0123456789+-") ->
  prof_load dbg rho (lines_text (show t :: showZ n :: map prof_row ps) ++ ws ++ c :: r) = Undef Uninit.
Proof. intros F W L WS C N. apply no_start in N as [D S]. now apply prof_bad_type. Qed.
Lemma prof_bad_end dbg rho t ps p c r : finite t -> Forall writable ps -> writable p -> Z.of_nat (List.length ps) < int_max ->
  is_space c = false -> ~ In c (lit "0123456789+-.") ->
  exists t' qs q, prof_load dbg rho (lines_text (show t :: showZ (Z.of_nat (List.length ps) + 1) :: map prof_row ps) ++ last_row p ++ c :: r) = Ok (t', qs ++ [q]) /\
    List.length qs = List.length ps /\ p_type q = p_type p /\ rel3 as_printed (p_pos p) (p_pos q) /\
    as_printed (vx (p_vel p)) (vx (p_vel q)) /\ as_printed (vy (p_vel p)) (vy (p_vel q)) /\ vz (p_vel q) = B754_zero false.
Proof.
  intros F W Wp L C N. change (lit "0123456789+-.") with (lit "0123456789+-" ++ ["."%char]) in N. rewrite in_app_iff in N.
  assert (N1 : ~ In c (lit "0123456789+-")) by tauto. apply no_start in N1 as [D S]. apply prof_bad_last; try assumption.
  apply not_true_iff_false. intros E. apply Ascii.eqb_eq in E. apply N. right. left. auto.
Qed.
Lemma bad_case : finite clock /\ Forall writable pair /\ Z.of_nat (List.length pair) < 3 <= int_max /\
  is_space "x" = false /\ ~ In "x"%char (lit "0123456789+-.") /\ ~ In "."%char (lit "0123456789+-").
Proof.
  split; [exact clock_finite|]. split; [apply pair_ok|]. split; [split; [reflexivity|discriminate]|]. split; [reflexivity|].
  split; vm_compute; intuition discriminate.
Qed.
