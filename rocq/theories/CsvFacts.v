(** * CSV input with any columns *)
From Coq Require Import PeanoNat Permutation.
From Verif Require Export FilesFacts.
Open Scope Z_scope.

Lemma plain_no l : plain l -> no comma l /\ no nl l.
Proof.
  assert (K : forall c, ~ In c l -> no c l).
  { intros c H. apply Forall_forall. intros d I. destruct (Ascii.eqb_spec d c) as [->|N]; [contradiction|reflexivity]. }
  intros [H1 H2]. split; now apply K.
Qed.
Lemma cells_join l : l <> [] -> Forall (no comma) l -> cells (join l) = l.
Proof.
  unfold cells. intros N H. induction H as [|a l A _ IH]; [congruence|]. destruct l as [|b l].
  - cbn [join]. rewrite cells_from_last by exact A. reflexivity.
  - cbn [join] in *. rewrite cells_from_cons by exact A. cbn [app]. rewrite IH by discriminate. reflexivity.
Qed.
Lemma join_no_nl l : Forall (no nl) l -> no nl (join l).
Proof.
  induction 1 as [|a l A _ IH]; [constructor|]. destruct l as [|b l]; [exact A|]. cbn [join] in *. apply no_app. split; [exact A|].
  apply no_cons; [reflexivity|exact IH].
Qed.
Lemma text_eqb_iff a b : text_eqb a b = true <-> a = b.
Proof. unfold text_eqb. destruct (list_eq_dec ascii_dec a b); split; congruence. Qed.
Lemma text_eqb_neq a b : a <> b -> text_eqb a b = false.
Proof. intros N. destruct (text_eqb a b) eqn:E; [|reflexivity]. apply text_eqb_iff in E. contradiction. Qed.
Lemma exists_text a l : existsb (text_eqb a) l = true <-> In a l.
Proof.
  rewrite existsb_exists. split.
  - intros (b & I & E). apply text_eqb_iff in E. now subst.
  - intros I. exists a. split; [exact I|]. now apply text_eqb_iff.
Qed.
Lemma no_dup_iff l : no_dup l = true <-> NoDup l.
Proof.
  induction l as [|a l IH]; cbn [no_dup]; [split; [constructor|reflexivity]|]. rewrite andb_true_iff, IH, negb_true_iff. split.
  - intros [H1 H2]. constructor; [|exact H2]. intros I. apply exists_text in I. congruence.
  - intros H. inversion_clear H as [|? ? H1 H2]. split; [|exact H2]. destruct (existsb (text_eqb a) l) eqn:E; [|reflexivity]. apply exists_text in E. contradiction.
Qed.
Lemma header_read h : Forall (no comma) h -> NoDup h -> incl h known -> h <> [] -> read_header (join h) = Ok h.
Proof.
  intros N D K Z. unfold read_header. cbv zeta. rewrite cells_join by assumption. rewrite (proj2 (no_dup_iff h) D), andb_true_r.
  rewrite (proj2 (forallb_forall _ h)); [reflexivity|]. intros a I. apply exists_text. change columns with known. auto.
Qed.
Lemma known_plain : Forall plain known.
Proof.
  apply Forall_forall. intros l I. unfold known in I. cbn [map In] in I.
  destruct I as [<-|[<-|[<-|[<-|[<-|[<-|[<-|[<-|[<-|[]]]]]]]]]]; split; intros K; cbn in K; repeat destruct K as [K|K]; try discriminate K; exact K.
Qed.
Lemma header_no h : incl h known -> Forall (no comma) h /\ Forall (no nl) h.
Proof.
  intros I. pose proof known_plain as P. rewrite Forall_forall in P. split; apply Forall_forall; intros a A; apply (plain_no a); apply P; auto.
Qed.
Lemma under_in name c : forall h r, NoDup h -> under name h r = Some c <-> In (name, c) (combine h r).
Proof.
  induction h as [|a h IH]; intros r D; [split; [discriminate|intros []]|]. inversion_clear D as [|? ? D1 D2].
  destruct r as [|b r]; [split; [discriminate|intros []]|]. cbn [under combine In]. destruct (text_eqb a name) eqn:E.
  - apply text_eqb_iff in E. subst a. split; [intros H; left; congruence|]. intros [H|H]; [congruence|]. apply in_combine_l in H. contradiction.
  - rewrite IH by exact D2. split; [auto|]. intros [H|H]; [|exact H]. injection H as -> ->. assert (text_eqb name name = true) by now apply text_eqb_iff. congruence.
Qed.
Lemma under_none name : forall h r, ~ In name h -> under name h r = None.
Proof.
  induction h as [|a h IH]; intros r N; [reflexivity|]. destruct r as [|b r]; [reflexivity|]. cbn [under]. rewrite text_eqb_neq by (intros ->; apply N; now left).
  apply IH. intros I. apply N. now right.
Qed.
Lemma in_combine_some (name : list ascii) : forall h r, List.length r = List.length h -> In name h -> exists c, In (name, c) (combine h r : list (list ascii * list ascii)).
Proof.
  induction h as [|a h IH]; intros r L I; [destruct I|]. destruct r as [|b r]; [discriminate|]. injection L as L. cbn [combine In]. destruct I as [->|I].
  - exists b. now left.
  - destruct (IH r L I) as (c & J). exists c. now right.
Qed.
Lemma under_perm name h r h' r' : NoDup h -> NoDup h' -> Permutation (combine h r) (combine h' r') -> under name h r = under name h' r'.
Proof.
  intros D D' P. destruct (under name h r) as [c|] eqn:E.
  - apply under_in in E; [|exact D]. symmetry. apply under_in; [exact D'|]. now apply (Permutation_in _ P).
  - destruct (under name h' r') as [c|] eqn:E'; [|reflexivity]. apply under_in in E'; [|exact D']. apply Permutation_sym in P. apply (Permutation_in _ P) in E'.
    apply under_in in E'; [|exact D]. congruence.
Qed.

Ltac inn := unfold required; cbn [map In]; repeat first [left; reflexivity | right].
Section General.
Variable cell_int : list ascii -> option Z.
Variable cell_dbl : list ascii -> option f64.
Notation rok := (row_ok cell_int cell_dbl).

Lemma csv_text_load dbg rho tl cl t c h rows : no nl tl -> no nl cl -> stod tl = Ok t -> stod cl = Ok c ->
  h <> [] -> NoDup h -> incl h known -> Forall (Forall plain) rows ->
  csv_load cell_int cell_dbl dbg rho (csv_text tl cl h rows) =
    (ps <- csv_rows cell_int cell_dbl dbg rho h (map join rows) (mkCv None (Some 0) None None None None None None (Some (@nneg F64 (nofZ 1)))) [] ;; Ok (t, ps)).
Proof.
  intros N1 N2 E1 E2 HN D K P. unfold csv_load, csv_text. destruct (header_no h K) as [K1 K2]. rewrite lines_of_text.
  - rewrite E1, E2. cbn [bind]. rewrite header_read by assumption. reflexivity.
  - constructor; [exact N1|]. constructor; [exact N2|]. constructor; [now apply join_no_nl|]. apply Forall_map. eapply Forall_impl; [|exact P].
    intros r R. apply join_no_nl. eapply Forall_impl; [|exact R]. intros a A. now apply plain_no.
Qed.
Lemma cells_row (h r : list (list ascii)) : h <> [] -> Forall plain r -> List.length r = List.length h -> cells (join r) = r.
Proof.
  intros H P L. apply cells_join. { intros ->. destruct h; [congruence|discriminate]. }
  eapply Forall_impl; [|exact P]. intros a A. now apply plain_no.
Qed.
(** ** order of the columns *)
Lemma read_row_perm h r h' r' v : h <> [] -> h' <> [] -> NoDup h -> NoDup h' -> Forall plain r -> Forall plain r' ->
  List.length r = List.length h -> List.length r' = List.length h' -> Permutation (combine h r) (combine h' r') ->
  read_row cell_int cell_dbl h (join r) v = read_row cell_int cell_dbl h' (join r') v.
Proof.
  intros H H' D D' P P' L L' PE. unfold read_row. cbv zeta. rewrite (cells_row h r), (cells_row h' r') by assumption. rewrite L, L', !Nat.eqb_refl. cbn [negb].
  rewrite !(fun name => under_perm name h r h' r' D D' PE). reflexivity.
Qed.
Lemma csv_column_order dbg rho tl cl cl' t c c' h rows h' rows' : no nl tl -> no nl cl -> no nl cl' -> stod tl = Ok t -> stod cl = Ok c -> stod cl' = Ok c' ->
  header_ok h -> header_ok h' ->
  Forall2 (fun r r' => Forall plain r /\ Forall plain r' /\ List.length r = List.length h /\ List.length r' = List.length h'
                       /\ Permutation (combine h r) (combine h' r')) rows rows' ->
  csv_load cell_int cell_dbl dbg rho (csv_text tl cl h rows) = csv_load cell_int cell_dbl dbg rho (csv_text tl cl' h' rows').
Proof.
  intros N1 N2 N2' E1 E2 E2' (D & K & Q) (D' & K' & Q') F.
  assert (NE : forall l, incl required l -> l <> []). { intros l I ->. apply (I (lit "type")). now left. }
  assert (F1 : Forall (Forall plain) rows) by (clear - F; induction F as [|? ? ? ? ? ? IH]; [constructor|constructor; [tauto|exact IH]]).
  assert (F2 : Forall (Forall plain) rows') by (clear - F; induction F as [|? ? ? ? ? ? IH]; [constructor|constructor; [tauto|exact IH]]).
  rewrite (csv_text_load dbg rho tl cl t c h rows), (csv_text_load dbg rho tl cl' t c' h' rows') by auto. f_equal.
  clear F1 F2. set (v := mkCv _ _ _ _ _ _ _ _ _). clearbody v. generalize (@nil particle) as acc. revert v.
  induction F as [|r r' rows rows' (P & P' & L & L' & PE) F IH]; intros v acc; [reflexivity|]. cbn [map csv_rows].
  rewrite (read_row_perm h r h' r' v) by auto. destruct (read_row cell_int cell_dbl h' (join r') v) as [v'|u| |e| |]; cbn [bind]; try reflexivity.
  destruct (stored3 (cv_x v', cv_y v', cv_z v')); cbn [bind]; try reflexivity. destruct (stored3 (cv_vx v', cv_vy v', cv_vz v')); cbn [bind]; try reflexivity.
  destruct (stored (cv_dens v')); cbn [bind]; try reflexivity. cbv zeta. destruct (stored (cv_type v')); cbn [bind]; try reflexivity.
  destruct (stored (cv_ftype v')); cbn [bind]; try reflexivity. destruct (add_particle _ _ _); cbn [bind]; try reflexivity. apply IH.
Qed.

(** ** what a row means *)
Lemma read_cell_col {A} (conv : list ascii -> option A) h r name old : NoDup h -> List.length r = List.length h ->
  (forall c, In (lit name, c) (combine h r) -> conv c <> None) ->
  In (lit name) h -> exists a, read_cell conv (under (lit name) h r) old = Ok (Some a) /\ column conv h r name a.
Proof.
  intros D L C I. destruct (in_combine_some (lit name) h r L I) as (c & J). specialize (C c J). pose proof (proj2 (under_in (lit name) c h r D) J) as U.
  destruct (conv c) as [a|] eqn:E; [|congruence]. exists a. unfold read_cell. rewrite U, E. split; [reflexivity|]. exists c. now split.
Qed.
Lemma read_cell_missing {A} (conv : list ascii -> option A) h r name old : ~ In (lit name) h -> read_cell conv (under (lit name) h r) old = Ok old.
Proof. intros N. unfold read_cell. now rewrite under_none. Qed.
Lemma csv_rows_made dbg rho h : header_ok h -> forall rows v acc, Forall (rok h) rows ->
  (In (lit "fluidType") h \/ cv_ftype v = Some 0) ->
  (In (lit "density") h \/ cv_dens v = Some rho \/ exists d, cv_dens v = Some d /\ @nlt F64 d (B754_zero false) = true) ->
  exists ps, csv_rows cell_int cell_dbl dbg rho h (map join rows) v acc = Ok (acc ++ ps)
    /\ List.length ps = List.length rows
    /\ forall i r, nth_error rows i = Some r -> exists p, nth_error ps i = Some p /\ made_from cell_int cell_dbl rho h r (List.length acc + i) p.
Proof.
  intros (D & K & Q). induction rows as [|r rows IH]; intros v acc W HF HD; cbn [map csv_rows].
  - exists []. rewrite app_nil_r. split; [reflexivity|]. split; [reflexivity|]. intros [|i]; discriminate.
  - inversion_clear W as [|? ? W1 W2]. destruct W1 as (L & P & C).
    assert (NE : h <> []). { intros ->. apply (Q (lit "type")). now left. }
    assert (CI : forall name, In (lit name) (map lit ["type"; "fluidType"]%string) -> forall c, In (lit name, c) (combine h r) -> cell_int c <> None).
    { intros name I c J. now apply (C (lit name) c J). }
    assert (CD : forall name, In (lit name) (map lit ["x"; "y"; "z"; "vx"; "vy"; "vz"; "density"]%string) -> forall c, In (lit name, c) (combine h r) -> cell_dbl c <> None).
    { intros name I c J. now apply (C (lit name) c J). }
    assert (RQ : forall name, In (lit name) required -> In (lit name) h) by (intros name I; now apply Q).
    destruct (read_cell_col cell_int h r "type" (cv_type v) D L (CI "type"%string ltac:(inn)) (RQ "type"%string ltac:(inn))) as (ty & E1 & C1).
    destruct (read_cell_col cell_dbl h r "x" (cv_x v) D L (CD "x"%string ltac:(inn)) (RQ "x"%string ltac:(inn))) as (x & E2 & C2).
    destruct (read_cell_col cell_dbl h r "y" (cv_y v) D L (CD "y"%string ltac:(inn)) (RQ "y"%string ltac:(inn))) as (y & E3 & C3).
    destruct (read_cell_col cell_dbl h r "z" (cv_z v) D L (CD "z"%string ltac:(inn)) (RQ "z"%string ltac:(inn))) as (z & E4 & C4).
    destruct (read_cell_col cell_dbl h r "vx" (cv_vx v) D L (CD "vx"%string ltac:(inn)) (RQ "vx"%string ltac:(inn))) as (ux & E5 & C5).
    destruct (read_cell_col cell_dbl h r "vy" (cv_vy v) D L (CD "vy"%string ltac:(inn)) (RQ "vy"%string ltac:(inn))) as (uy & E6 & C6).
    destruct (read_cell_col cell_dbl h r "vz" (cv_vz v) D L (CD "vz"%string ltac:(inn)) (RQ "vz"%string ltac:(inn))) as (uz & E7 & C7).
    assert (EF : exists f, read_cell cell_int (under (lit "fluidType") h r) (cv_ftype v) = Ok (Some f)
      /\ (In (lit "fluidType") h /\ column cell_int h r "fluidType" f \/ ~ In (lit "fluidType") h /\ f = 0)).
    { destruct (in_dec (list_eq_dec ascii_dec) (lit "fluidType") h) as [I|I].
      - destruct (read_cell_col cell_int h r "fluidType" (cv_ftype v) D L (CI "fluidType"%string ltac:(inn)) I) as (f & E & CF). exists f. auto.
      - exists 0. rewrite read_cell_missing by exact I. destruct HF as [HF|HF]; [contradiction|]. rewrite HF. auto. }
    destruct EF as (f & E8 & C8).
    assert (ED : exists d0, read_cell cell_dbl (under (lit "density") h r) (cv_dens v) = Ok (Some d0)
      /\ let d := if @nlt F64 d0 (B754_zero false) then rho else d0 in
      (In (lit "density") h /\ (exists d0, column cell_dbl h r "density" d0 /\ d = if @nlt F64 d0 (B754_zero false) then rho else d0)
        \/ ~ In (lit "density") h /\ d = rho)).
    { destruct (in_dec (list_eq_dec ascii_dec) (lit "density") h) as [I|I].
      - destruct (read_cell_col cell_dbl h r "density" (cv_dens v) D L (CD "density"%string ltac:(inn)) I) as (d & E & CF). exists d. split; [exact E|]. left. split; [exact I|]. exists d. auto.
      - rewrite read_cell_missing by exact I. destruct HD as [HD|[HD|(d & HD & HD')]]; [contradiction| |].
        + exists rho. rewrite HD. split; [reflexivity|]. right. split; [exact I|]. now destruct (@nlt F64 rho (B754_zero false)).
        + exists d. rewrite HD. split; [reflexivity|]. right. split; [exact I|]. cbv zeta. now rewrite HD'. }
    destruct ED as (d0 & E9 & C9).
    unfold read_row. cbv zeta. rewrite (cells_row h r) by assumption. rewrite L, Nat.eqb_refl. cbn [negb].
    rewrite E1; cbn [bind]. rewrite E8; cbn [bind]. rewrite E2; cbn [bind]. rewrite E3; cbn [bind]. rewrite E4; cbn [bind]. rewrite E5; cbn [bind]. rewrite E6; cbn [bind].
    rewrite E7; cbn [bind]. rewrite E9; cbn [bind]. cbn [cv_x cv_y cv_z cv_vx cv_vy cv_vz cv_dens cv_type cv_ftype stored3 stored bind]. cbv zeta in C9.
    set (d := if @nlt F64 d0 (B754_zero false) then rho else d0) in *. rewrite add_next. cbn [bind].
    set (p := newParticle (Z.of_nat (List.length acc)) ty (@mkV F64 x y z) (@mkV F64 ux uy uz) d f).
    destruct (IH (mkCv (Some ty) (Some f) (Some x) (Some y) (Some z) (Some ux) (Some uy) (Some uz) (Some d)) (acc ++ [p]) W2) as (ps & E & LP & M).
    { destruct C8 as [(I & _)|(_ & ->)]; [now left|now right]. }
    { destruct C9 as [(I & _)|(_ & ->)]; [now left|right; now left]. }
    rewrite E, <- app_assoc. exists (p :: ps). split; [reflexivity|]. split; [cbn [List.length]; now rewrite LP|].
    intros [|i] r' En; cbn [nth_error] in *.
    + injection En as <-. exists p. split; [reflexivity|]. rewrite Nat.add_0_r. exists ty, x, y, z, ux, uy, uz, d, f.
      split; [reflexivity|]. repeat (split; [assumption|]). assumption.
    + destruct (M i r' En) as (q & Eq & Mq). exists q. split; [exact Eq|]. rewrite app_length in Mq. cbn [List.length] in Mq.
      replace (List.length acc + S i)%nat with (List.length acc + 1 + i)%nat by lia. exact Mq.
Qed.
Lemma csv_general dbg rho tl cl t c h rows : no nl tl -> no nl cl -> stod tl = Ok t -> stod cl = Ok c ->
  header_ok h -> Forall (rok h) rows ->
  exists ps, csv_load cell_int cell_dbl dbg rho (csv_text tl cl h rows) = Ok (t, ps)
    /\ List.length ps = List.length rows
    /\ forall i r, nth_error rows i = Some r -> exists p, nth_error ps i = Some p /\ made_from cell_int cell_dbl rho h r i p.
Proof.
  intros N1 N2 E1 E2 H W.
  assert (NE : h <> []). { intros ->. destruct H as (_ & _ & Q). apply (Q (lit "type")). now left. }
  rewrite (csv_text_load dbg rho tl cl t c h rows); try apply H; auto.
  2:{ eapply Forall_impl; [|exact W]. intros r (_ & P & _). exact P. }
  destruct (csv_rows_made dbg rho h H rows (mkCv None (Some 0) None None None None None None (Some (@nneg F64 (nofZ 1)))) [] W) as (ps & E & L & M).
  { now right. } { right. right. eexists. split; [reflexivity|]. vm_compute. reflexivity. }
  rewrite E. cbn [bind app]. exists ps. split; [reflexivity|]. split; [exact L|]. exact M.
Qed.
End General.
