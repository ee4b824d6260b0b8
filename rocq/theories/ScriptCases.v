(** * Concrete files and disks for C76, C77, and the runs of the scripts *)
From Verif Require Import GeneratorCases ProgramFacts ShippedCases FilesCases LoaderCases SimCases StepCasesF ScriptFacts SimF SpecScripts RunnerFacts.
Open Scope list_scope.
Open Scope Z_scope.
#[local] Remove Hints Rnum : typeclass_instances.

(** ** the shipped files *)
Lemma shipped_converted : text_eqb (prof_to_csv (file dambreak_prof)) (file dambreak_csv) && text_eqb (prof_to_csv (file hydrostatic_prof)) (file hydrostatic_csv) = true.
Proof. vm_compute. reflexivity. Qed.
Lemma shipped_csv : prof_to_csv (file dambreak_prof) = file dambreak_csv /\ prof_to_csv (file hydrostatic_prof) = file hydrostatic_csv.
Proof. pose proof shipped_converted as H. apply andb_true_iff in H as [A B]. split; apply CsvFacts.text_eqb_iff; assumption. Qed.

(** ** files that the program reads and that lose particles in the script *)
Definition counts (f : list ascii) (rho : f64) (a b : nat) : bool :=
  match prof_load false rho f, csv_load int_cell dbl_cell false rho (prof_to_csv f) with
  | Ok (_, ps), Ok (_, qs) => Nat.eqb (List.length ps) a && Nat.eqb (List.length qs) b
  | _, _ => false
  end.
Lemma counts_loaded f rho a b : counts f rho a b = true ->
  exists t ps t' qs, prof_load false rho f = Ok (t, ps) /\ csv_load int_cell dbl_cell false rho (prof_to_csv f) = Ok (t', qs) /\ List.length ps = a /\ List.length qs = b.
Proof.
  unfold counts. destruct (prof_load false rho f) as [[t ps]| | | | |]; try discriminate. destruct (csv_load int_cell dbl_cell false rho (prof_to_csv f)) as [[t' qs]| | | | |]; try discriminate.
  rewrite andb_true_iff, !Nat.eqb_eq. intros [A B]. now exists t, ps, t', qs.
Qed.
Definition tabbed : list ascii := lines_text [lit "0"; lit "2"; lit "1 0.5 0 0 0 0 0"; lit "2" ++ ascii_of_nat 9 :: lit "0.75 0 0 0 0 0"].
Definition unended : list ascii := lines_text [lit "0"; lit "2"; lit "1 0.5 0 0 0 0 0"] ++ lit "2 0.75 0 0 0 0 0".
Definition negative : list ascii := lines_text [lit "0"; lit "2"; lit "1 0.5 0 0 0 0 0"; lit "-1 0.75 0 0 0 0 0"].
Lemma tabbed_lost : counts tabbed (fz 1000) 2 1 = true. Proof. vm_compute. reflexivity. Qed.
Lemma unended_lost : counts unended (fz 1000) 2 1 = true. Proof. vm_compute. reflexivity. Qed.
Lemma negative_lost : counts negative (fz 1000) 2 1 = true. Proof. vm_compute. reflexivity. Qed.

(** ** the runs *)
Lemma same_loaded (x : filesystem * outcome input) f1 f2 (s : @settings F64) t p q : x = (f1, Ok (mkI s p t)) -> x = (f2, Ok (mkI s q t)) -> q = p.
Proof. intros -> H. now injection H. Qed.
Section Runs.
Variables (parse : list ascii -> option node) (as_int : list ascii -> option Z) (as_dbl : list ascii -> option f64) (as_bool : list ascii -> option bool).
Variables (cell_int : list ascii -> option Z) (cell_dbl : list ascii -> option f64) (fsin fcos : f64 -> f64) (M_PI : f64) (big dbg : bool).
Hypothesis RP : reads_plainly parse as_int as_dbl as_bool.
Variables (S : solver) (real : Z) (clk : nat -> Z * Z) (fuel : nat).
Hypothesis SZ : sized S.
Hypothesis CK : usual_clock real clk.
Variables (err con : list ascii) (root cwd : path).
Hypothesis NB : has_blank root = false.
Let mps := program parse as_int as_dbl as_bool cell_int cell_dbl fsin fcos M_PI big dbg S real clk fuel.

Lemma started_dam fs dir out : installed fs dir out dambreak_yml (file dambreak_prof) -> (Z.to_nat 2001 <= fuel)%nat ->
  exists exact ps m, @dambreak Rnum dbg = Ok exact /\ Forall2 close exact ps /\ Forall in_dam_domain ps /\
    factoryCreate fsin fcos M_PI (dam_settings dbg (path_text (dir ++ [lit "input.prof"]))) ps = Ok m /\
    case_ends S dbg m 2001 (multiples 40 0 26 0 ++ multiples 40 26 25 1) (snd (mps (dir ++ [lit "settings.yml"]) out fs)).
Proof.
  intros I FU. destruct (case_dam _ _ _ _ cell_int cell_dbl fsin fcos M_PI dbg RP fs dir out I) as (f1 & exact & ps & m & L & _ & G & C & D & _ & FC).
  destruct (run_dam _ _ _ _ cell_int cell_dbl fsin fcos M_PI big dbg RP S real clk fuel fs dir out I SZ CK FU) as (f2 & ps2 & m2 & L2 & FC2 & E).
  apply (same_loaded _ _ _ _ _ _ _ L) in L2. subst ps2. rewrite FC in FC2. injection FC2 as FC2. subst m2. exists exact, ps, m. auto.
Qed.
Lemma started_hyd fs dir out : installed fs dir out hydrostatic_yml (file hydrostatic_prof) -> (Z.to_nat 5000 <= fuel)%nat ->
  exists exact ps m, @hydrostatic Rnum dbg = Ok exact /\ Forall2 close exact ps /\ Forall in_hyd_domain ps /\
    factoryCreate fsin fcos M_PI (hyd_settings dbg (path_text (dir ++ [lit "input.prof"]))) ps = Ok m /\
    case_ends S dbg m 5000 (multiples 50 0 21 0 ++ multiples 50 21 79 1 ++ [5000]) (snd (mps (dir ++ [lit "settings.yml"]) out fs)).
Proof.
  intros I FU. destruct (case_hyd _ _ _ _ cell_int cell_dbl fsin fcos M_PI dbg RP fs dir out I) as (f1 & exact & ps & m & L & _ & G & C & D & _ & FC).
  destruct (run_hyd _ _ _ _ cell_int cell_dbl fsin fcos M_PI big dbg RP S real clk fuel fs dir out I SZ CK FU) as (f2 & ps2 & m2 & L2 & FC2 & E).
  apply (same_loaded _ _ _ _ _ _ _ L) in L2. subst ps2. rewrite FC in FC2. injection FC2 as FC2. subst m2. exists exact, ps, m. auto.
Qed.

Lemma runner_dam fs0 fs : checkout root (lit "dambreak") dambreak_yml (file dambreak_prof) fs0 -> runs_of root (lit "dambreak") fs0 fs -> (Z.to_nat 2001 <= fuel)%nat ->
  exists exact ps m, @dambreak Rnum dbg = Ok exact /\ Forall2 close exact ps /\ Forall in_dam_domain ps /\
    factoryCreate fsin fcos M_PI (dam_settings dbg (path_text (root ++ [lit "input"; lit "dambreak"; lit "input.prof"]))) ps = Ok m /\
    case_ends S dbg m 2001 (multiples 40 0 26 0 ++ multiples 40 26 25 1) (snd (runner mps err con root cwd (lit "dambreak") fs)).
Proof.
  intros C0 RU FU. pose proof (checkout_kept root (lit "dambreak") NB _ _ _ _ RU C0) as C.
  destruct (checkout_prepared root (lit "dambreak") NB _ _ fs err con C) as (I & _ & E). rewrite E.
  pose proof (started_dam _ _ _ I FU) as H. rewrite <- !app_assoc in H. exact H.
Qed.
Lemma safe_hyd fs folder : checkout root (lit "hydrostatic") hydrostatic_yml (file hydrostatic_prof) fs -> usable fs (root ++ [lit "result"; folder]) ->
  (forall q, below (root ++ [lit "result"; folder]) q -> fs q = None) -> (Z.to_nat 5000 <= fuel)%nat ->
  exists exact ps m, @hydrostatic Rnum dbg = Ok exact /\ Forall2 close exact ps /\ Forall in_hyd_domain ps /\
    factoryCreate fsin fcos M_PI (hyd_settings dbg (path_text (root ++ [lit "input"; lit "hydrostatic"; lit "input.prof"]))) ps = Ok m /\
    case_ends S dbg m 5000 (multiples 50 0 21 0 ++ multiples 50 21 79 1 ++ [5000]) (snd (safe_runner mps err con root cwd (lit "hydrostatic") folder fs)).
Proof.
  intros C U B FU. destruct (safe_prepared root (lit "hydrostatic") folder NB _ _ fs err con C U B) as (fs1 & I & E). rewrite E.
  pose proof (started_hyd _ _ _ I FU) as H. rewrite <- !app_assoc in H. exact H.
Qed.
Lemma safe_dam fs folder : checkout root (lit "dambreak") dambreak_yml (file dambreak_prof) fs -> usable fs (root ++ [lit "result"; folder]) ->
  (forall q, below (root ++ [lit "result"; folder]) q -> fs q = None) -> (Z.to_nat 2001 <= fuel)%nat ->
  exists exact ps m, @dambreak Rnum dbg = Ok exact /\ Forall2 close exact ps /\ Forall in_dam_domain ps /\
    factoryCreate fsin fcos M_PI (dam_settings dbg (path_text (root ++ [lit "input"; lit "dambreak"; lit "input.prof"]))) ps = Ok m /\
    case_ends S dbg m 2001 (multiples 40 0 26 0 ++ multiples 40 26 25 1) (snd (safe_runner mps err con root cwd (lit "dambreak") folder fs)).
Proof.
  intros C U B FU. destruct (safe_prepared root (lit "dambreak") folder NB _ _ fs err con C U B) as (fs1 & I & E). rewrite E.
  pose proof (started_dam _ _ _ I FU) as H. rewrite <- !app_assoc in H. exact H.
Qed.
End Runs.

(** ** disks *)
Definition repo : path := [lit "home"; lit "mps"].
Definition repo_disk (project : name) (yml : list string) (prof : list ascii) (more : list (path * item)) : filesystem :=
  disk ([([], Folder); ([lit "home"], Folder); (repo, Folder); (repo ++ [lit "build"], Folder); (repo ++ [lit "build"; lit "mps"], File (lit "ELF"));
         (repo ++ [lit "input"], Folder); (repo ++ [lit "input"; project], Folder);
         (repo ++ [lit "input"; project; lit "settings.yml"], File (joined_lines yml)); (repo ++ [lit "input"; project; lit "input.prof"], File prof)] ++ more).
(** with results of an earlier run *)
Definition old_results : list (path * item) :=
  [(repo ++ [lit "result"], Folder); (repo ++ [lit "result"; lit "dambreak"], Folder); (repo ++ [lit "result"; lit "dambreak"; lit "settings.yml"], File (lit "old"))].
Lemma dam_checkout : checkout repo (lit "dambreak") dambreak_yml (file dambreak_prof) (repo_disk (lit "dambreak") dambreak_yml (file dambreak_prof) old_results).
Proof. split; [exists (lit "ELF"); reflexivity|]. split; [reflexivity|]. split; [reflexivity|]. split; right; reflexivity. Qed.
Definition new_folder : name := lit "20240101120000-hydrostatic-".
Lemma hyd_checkout : let fs := repo_disk (lit "hydrostatic") hydrostatic_yml (file hydrostatic_prof) old_results in
  checkout repo (lit "hydrostatic") hydrostatic_yml (file hydrostatic_prof) fs /\ usable fs (repo ++ [lit "result"; new_folder]) /\
  (forall q, below (repo ++ [lit "result"; new_folder]) q -> fs q = None).
Proof.
  split; [|split].
  - split; [exists (lit "ELF"); reflexivity|]. split; [reflexivity|]. split; [reflexivity|]. split; [right|left]; reflexivity.
  - left. reflexivity.
  - intros q (n & r & ->). apply disk_none. cbn [map fst app repo]. intros H. repeat (destruct H as [H|H]; [discriminate H|]). exact H.
Qed.

(** a repository in a directory with a blank in its name: the script stays in the current directory *)
Definition blank_name (c : ascii) : name := lit "my" ++ c :: lit "codes".
Definition blank_root (c : ascii) : path := [lit "home"; blank_name c; lit "mps"].
Definition letters : path := [lit "home"; lit "result"; lit "dambreak"; lit "thesis.txt"].
Definition blank_disk (c : ascii) : filesystem :=
  disk [([], Folder); ([lit "home"], Folder); ([lit "home"; blank_name c], Folder); (blank_root c, Folder); (blank_root c ++ [lit "build"], Folder); (blank_root c ++ [lit "build"; lit "mps"], File (lit "ELF"));
        (blank_root c ++ [lit "input"], Folder); (blank_root c ++ [lit "input"; lit "dambreak"], Folder);
        (blank_root c ++ [lit "input"; lit "dambreak"; lit "settings.yml"], File (joined_lines dambreak_yml)); (blank_root c ++ [lit "input"; lit "dambreak"; lit "input.prof"], File (file dambreak_prof));
        ([lit "home"; lit "result"], Folder); ([lit "home"; lit "result"; lit "dambreak"], Folder); (letters, File (lit "chapter 1"))].
Lemma blank_case c mps err con : In c [" "; ascii_of_N 9; ascii_of_N 10]%char ->
  exists root cwd fs n p b, In n root /\ In c n /\ checkout root (lit "dambreak") dambreak_yml (file dambreak_prof) fs /\ ~ below root p /\ fs p = Some (File b) /\
  fst (runner mps err con root cwd (lit "dambreak") fs) p = None /\ snd (runner mps err con root cwd (lit "dambreak") fs) = Exit 127.
Proof.
  intros C. exists (blank_root c), [lit "home"], (blank_disk c), (blank_name c), letters, (lit "chapter 1"). split; [right; left; reflexivity|]. split; [right; right; left; reflexivity|].
  destruct C as [<-|[<-|[<-|[]]]]; (split; [|split; [|split; [|split]]];
  [split; [exists (lit "ELF"); reflexivity|]; split; [reflexivity|]; split; [reflexivity|]; split; left; reflexivity
  |intros (n & r & E); discriminate E|reflexivity|reflexivity|reflexivity]).
Qed.

(** two runs of safe_runner.sh within one second *)
Definition twice_disk : filesystem :=
  disk [([], Folder); ([lit "home"], Folder); (repo, Folder); (repo ++ [lit "build"], Folder); (repo ++ [lit "build"; lit "mps"], File (lit "ELF"));
        (repo ++ [lit "input"], Folder); (repo ++ [lit "input"; lit "case"], Folder);
        (repo ++ [lit "input"; lit "case"; lit "settings.yml"], File (lit "good")); (repo ++ [lit "input"; lit "case"; lit "in.prof"], File particlesF)].
Definition toy : path -> path -> act (@sim F64) := program parseF read_int read_dbl read_bool read_int read_dbl fid fid c20 false false solver0 0 tickF 10.
Definition once (log : list ascii) : act (@sim F64) := safe_runner toy (lit "") log repo repo (lit "case") (lit "20240101120000-case-").
Definition log_path : path := repo ++ [lit "result"; lit "20240101120000-case-"; lit "console.log"].
Lemma twice_runs : let r := once (lit "first run") twice_disk in let r2 := once (lit "second run") (fst r) in
  completed r 2 && is_file (fst r) log_path (lit "first run") && exits r2 && is_file (fst r2) log_path (lit "second run") = true.
Proof. vm_compute. reflexivity. Qed.
Lemma twice_case : exists fs fs1 fs2 st p a b, once (lit "first run") fs = (fs1, Ok st) /\ once (lit "second run") fs1 = (fs2, Exit (-1)) /\
  fs1 p = Some (File a) /\ fs2 p = Some (File b) /\ a <> b.
Proof.
  pose proof twice_runs as H. cbv zeta in H. apply andb_true_iff in H as [H H4]. apply andb_true_iff in H as [H H3]. apply andb_true_iff in H as [H1 H2].
  apply completed_iff in H1 as (fs1 & st & E & _). rewrite E in *. cbn [fst] in *. apply exits_iff in H3 as (fs2 & E2). rewrite E2 in *. cbn [fst] in *.
  apply is_file_iff in H2, H4. exists twice_disk, fs1, fs2, st, log_path, (lit "first run"), (lit "second run"). do 4 (split; [assumption|]). discriminate.
Qed.

(** ** the hypotheses are met *)
Lemma rows_case : exists lines rows, Forall2 laid lines rows /\ Forall (fun r => List.length r = 7%nat) rows /\
  lines = [lit " 1  0.5 0 0 0 0 0"] /\ rows = [map lit ["1"; "0.5"; "0"; "0"; "0"; "0"; "0"]%string].
Proof.
  eexists _, _. split; [|split; [|split; reflexivity]]; [|repeat constructor]. constructor; [|constructor].
  assert (W : forall c, Ascii.eqb c sp = false -> Ascii.eqb c nl = false -> word_text [c]).
  { intros c A B. split; [discriminate|]. split; intros [K|[]]; subst c; discriminate. }
  assert (W2 : word_text (lit "0.5")) by (split; [discriminate|]; split; intros K; cbn in K; intuition discriminate).
  apply (laid_more 1 ["1"%char]); [now apply W|]. apply (laid_more 1 (lit "0.5")); [exact W2|].
  do 4 (apply (laid_more 0 ["0"%char]); [now apply W|]). apply (laid_last 0 0 ["0"%char]). now apply W.
Qed.
Lemma same_case : (forall z, in_int z = true -> int_cell (showZ z) = Some z) /\ (forall x, finite x -> exists y, dbl_cell (show x) = Some y /\ as_printed x y) /\
  time_like clock /\ Forall writable pair /\ Forall (fun p : Files.particle => 0 <= p_type p) pair /\ Z.of_nat (List.length pair) <= int_max.
Proof.
  split; [exact int_cell_ok|]. split; [exact dbl_cell_ok|]. split; [exact clock_time|]. split; [apply pair_ok|]. split; [|vm_compute; discriminate].
  constructor; [vm_compute; discriminate|]. constructor; [vm_compute; discriminate|]. constructor.
Qed.
Lemma tab_case : exists f rho t ps t' qs, f = lines_text [lit "0"; lit "2"; lit "1 0.5 0 0 0 0 0"; lit "2" ++ ascii_of_nat 9 :: lit "0.75 0 0 0 0 0"] /\
  prof_load false rho f = Ok (t, ps) /\ csv_load int_cell dbl_cell false rho (prof_to_csv f) = Ok (t', qs) /\ List.length ps = 2%nat /\ List.length qs = 1%nat.
Proof. destruct (counts_loaded _ _ _ _ tabbed_lost) as (t & ps & t' & qs & H). exists tabbed, (fz 1000), t, ps, t', qs. exact (conj eq_refl H). Qed.
Lemma last_line_case : exists f rho t ps t' qs, f = lines_text [lit "0"; lit "2"; lit "1 0.5 0 0 0 0 0"] ++ lit "2 0.75 0 0 0 0 0" /\
  prof_load false rho f = Ok (t, ps) /\ csv_load int_cell dbl_cell false rho (prof_to_csv f) = Ok (t', qs) /\ List.length ps = 2%nat /\ List.length qs = 1%nat.
Proof. destruct (counts_loaded _ _ _ _ unended_lost) as (t & ps & t' & qs & H). exists unended, (fz 1000), t, ps, t', qs. exact (conj eq_refl H). Qed.
Lemma negative_case : exists f rho t ps t' qs, f = lines_text [lit "0"; lit "2"; lit "1 0.5 0 0 0 0 0"; lit "-1 0.75 0 0 0 0 0"] /\
  prof_load false rho f = Ok (t, ps) /\ csv_load int_cell dbl_cell false rho (prof_to_csv f) = Ok (t', qs) /\ List.length ps = 2%nat /\ List.length qs = 1%nat.
Proof. destruct (counts_loaded _ _ _ _ negative_lost) as (t & ps & t' & qs & H). exists negative, (fz 1000), t, ps, t', qs. exact (conj eq_refl H). Qed.
Lemma earlier_case : let out := repo ++ [lit "result"; lit "dambreak"] in
  let fs := repo_disk (lit "dambreak") dambreak_yml (file dambreak_prof) old_results in let fs0 := repo_disk (lit "dambreak") dambreak_yml (file dambreak_prof) [] in
  has_blank repo = false /\ usable fs (repo ++ [lit "result"]) /\ usable fs out /\ usable fs0 (repo ++ [lit "result"]) /\ usable fs0 out /\
  (forall q, q <> repo ++ [lit "result"] -> q <> out -> ~ visible out q -> fs q = fs0 q) /\ fs (out ++ [lit "settings.yml"]) <> fs0 (out ++ [lit "settings.yml"]).
Proof.
  cbv zeta. split; [reflexivity|]. split; [right; reflexivity|]. split; [right; reflexivity|]. split; [left; reflexivity|]. split; [left; reflexivity|]. split; [|discriminate].
  intros q N1 N2 NV. assert (N3 : q <> repo ++ [lit "result"; lit "dambreak"; lit "settings.yml"]).
  { intros ->. apply NV. exists "s"%char, (lit "ettings.yml"), []. split; [discriminate|reflexivity]. }
  unfold repo_disk. generalize (joined_lines dambreak_yml) (file dambreak_prof). intros y f. cbn [app disk old_results].
  assert (E : put (put (put (fun _ => None) (repo ++ [lit "result"; lit "dambreak"; lit "settings.yml"]) (File (lit "old"))) (repo ++ [lit "result"; lit "dambreak"]) Folder) (repo ++ [lit "result"]) Folder q = None).
  { now rewrite !put_other. }
  unfold put at 1 2 3 4 5 6 7 8 9. rewrite E. unfold put. reflexivity.
Qed.
Lemma runs_case : runs_of repo (lit "dambreak") (repo_disk (lit "dambreak") dambreak_yml (file dambreak_prof) old_results)
    (fst (runner toy (lit "") (lit "a log") repo repo (lit "dambreak") (repo_disk (lit "dambreak") dambreak_yml (file dambreak_prof) old_results))).
Proof. apply runs_more. apply runs_none. Qed.
