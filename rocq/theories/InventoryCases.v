(** * Runs that end in undefined behaviour, one for each cause *)
From Coq Require Import String.
From Verif Require Import SimCases StepCasesF LoaderCases.
From Verif Require Export InventoryFacts.
Open Scope list_scope.
Open Scope Z_scope.

Definition parseI (b : list ascii) : option node :=
  if text_eqb b (lit "prof") then Some (confF "Explicit" "./in.prof")
  else if text_eqb b (lit "csv") then Some (confF "Explicit" "./in.csv")
  else if text_eqb b (lit "wide") then Some (LoaderCases.conf "0.25" "0.001" "0.001" "0.001" "1e9" "5" "Explicit" "./in.prof" "3")
  else if text_eqb b (lit "nan step") then Some (LoaderCases.conf "0.25" ".nan" "0.001" "0.001" "4" "5" "Explicit" "./in.prof" "3")
  else if text_eqb b (lit "long") then Some (LoaderCases.conf "0.25" "0.001" "1e300" "0.001" "4" "5" "Explicit" "./in.prof" "3")
  else None.
Definition startI (clk : nat -> Z * Z) := program parseI read_int read_nan read_bool read_int read_dbl fid fid c20 false false solver0 0 clk 10 setting_path out_dir.
Definition csv_path : path := case_dir ++ [lit "in.csv"].
Definition prof_only (t : list ascii) : filesystem := put (world "prof" []) particle_path (File t).
Definition csv_only (t : list ascii) : filesystem := world "csv" [(csv_path, File t)].
Definition cut_file : list ascii := lines_text [lit "0"; lit "2"; lit "1 1 1 0 0 0 0"; lit "1 1.25 1"].
Definition flat_file : list ascii := lines_text [lit "0"; lit "1"; lit "type,x,y,vx,vy,vz"; lit "1,1,1,0,0,0"].
(** a second for the first step *)
Definition slow (k : nat) : Z * Z := (0, 1000000000 * Z.of_nat (S k)).
(** a clock that has run out of 64 bits *)
Definition late_clock (k : nat) : Z * Z := (0, 9223372036854775808).

Definition ub_eqb (a b : ub) : bool :=
  match a, b with
  | OutOfBounds, OutOfBounds | IntOverflow, IntOverflow | BadCast, BadCast | Uninit, Uninit | NullDeref, NullDeref => true
  | _, _ => false
  end.
Definition undef (u : ub) (r : filesystem * outcome (@sim F64)) : bool := match snd r with Undef v => ub_eqb u v | _ => false end.
Lemma undef_iff u r : undef u r = true -> exists fs', r = (fs', Undef u).
Proof. unfold undef. destruct r as [fs' [a|v| |c| |]]; cbn [snd]; try discriminate. destruct u, v; try discriminate; intros _; exists fs'; reflexivity. Qed.

Lemma run_cut : exists fs', startI tickF (prof_only cut_file) = (fs', Undef Uninit).
Proof. apply undef_iff. vm_compute. reflexivity. Qed.
Lemma run_one_line : exists fs', startI tickF (csv_only (lit "0")) = (fs', Undef NullDeref).
Proof. apply undef_iff. vm_compute. reflexivity. Qed.
Lemma run_flat : exists fs', startI tickF (csv_only flat_file) = (fs', Undef Uninit).
Proof. apply undef_iff. vm_compute. reflexivity. Qed.
Lemma run_wide : exists fs', startI tickF (world "wide" []) = (fs', Undef IntOverflow).
Proof. apply undef_iff. vm_compute. reflexivity. Qed.
Lemma run_nan : exists fs', startI tickF (world "nan step" []) = (fs', Undef BadCast).
Proof. apply undef_iff. vm_compute. reflexivity. Qed.
Lemma run_long : exists fs', startI slow (world "long" []) = (fs', Undef BadCast).
Proof. apply undef_iff. vm_compute. reflexivity. Qed.
Lemma run_late : exists fs', startI late_clock (world "prof" []) = (fs', Undef IntOverflow).
Proof. apply undef_iff. vm_compute. reflexivity. Qed.
Lemma cut_sample : cut_short cut_file.
Proof. unfold cut_short. cbv zeta. exists 2, 1%nat. split; [vm_compute; reflexivity|]. split; [reflexivity|]. left. vm_compute. reflexivity. Qed.
