(** * Everything the program prints: runs *)
From Coq Require Import Reals String.
From Verif Require Import LoaderCases SimCases StepCasesF EndingsCases.
From Verif Require Export SpecMessages.
Open Scope list_scope.
Open Scope Z_scope.
#[local] Remove Hints Rnum : typeclass_instances.

Definition startM (S : @solver F64) (fuel : nat) (flip : bool) (setting out : option path) :=
  mainSay parseE read_int read_dbl read_bool read_int read_dbl fid fid c20 false false S 0 5000000000 tickF fuel flip setting out.
(** exit status, if any, standard output and standard error *)
Definition seen (r : filesystem * list message * outcome (@sim F64)) : option Z * string * string :=
  let '(_, w, o) := r in
  (match o with Exit c => Some c | Ok _ => Some 0 | _ => None end, String.concat "" (map (sayCout "?") w), String.concat "" (map (sayCerr "?" "Usage") w)).
Definition lines (l : list string) : string := String.concat "" (map (fun x => x ++ newline)%string l).
Lemma m_setting : seen (startM solver0 10 false (Some setting_path) (Some out_dir) (fun _ => None)) =
  (Some (-1), (lines ["ERROR: The setting file /home/case/settings.yml does not exist"]),
   (lines ["ERROR: The setting file /home/case/settings.yml does not exist"]))%string.
Proof. vm_compute. reflexivity. Qed.
Lemma m_output : seen (startM solver0 10 true (Some setting_path) (Some out_dir) (fun _ => None)) =
  (Some (-1), (lines ["ERROR: The output directory /home/out does not exist"]),
   (lines ["ERROR: The output directory /home/out does not exist"]))%string.
Proof. vm_compute. reflexivity. Qed.
Lemma m_missing : seen (startM solver0 10 true (Some setting_path) None (world "good" [])) =
  (Some (-1), (lines ["Setting file: /home/case/settings.yml"; "?"]),
   (lines ["?"] ++ "Usage"))%string.
Proof. vm_compute. reflexivity. Qed.
Lemma m_file : seen (startM solver0 10 false (Some setting_path) (Some setting_path) (world "good" [])) =
  (Some (-1), (lines ["Setting file: /home/case/settings.yml"; "Output directory: /home/case/settings.yml"; "?"]),
   (lines ["?"] ++ "Usage"))%string.
Proof. vm_compute. reflexivity. Qed.
Lemma m_gone : seen (startM solver0 10 false (Some setting_path) (Some out_dir) (world "gone" [])) =
  (Some (-1), (lines ["Setting file: /home/case/settings.yml"; "Output directory: /home/out"]),
   (lines ["cannot read prof file: ""/home/case/gone.prof"""]))%string.
Proof. vm_compute. reflexivity. Qed.
Lemma m_text : seen (startM solver0 10 false (Some setting_path) (Some out_dir) (world "text" [])) =
  (Some (-1), (lines ["Setting file: /home/case/settings.yml"; "Output directory: /home/out"]),
   (lines ["unsupported file format: "".yml"""]))%string.
Proof. vm_compute. reflexivity. Qed.
Lemma m_binary : seen (startM solver0 10 false (Some setting_path) (Some out_dir) (world "vtu" [(vtu_path, File raw_data)])) =
  (Some (-1), (lines ["Setting file: /home/case/settings.yml"; "Output directory: /home/out"]),
   (lines ["Error: Binary VTU files are not supported: ""/home/case/in.vtu"""]))%string.
Proof. vm_compute. reflexivity. Qed.
Lemma m_copy : seen (startM solver0 10 false (Some setting_path) (Some out_dir) (world "good" [(out_dir ++ [lit "in.prof"], File [])])) =
  (Some (-1), (lines ["Setting file: /home/case/settings.yml"; "Output directory: /home/out"]),
   (lines ["file ""/home/out/in.prof"" already exists in the output directory"]))%string.
Proof. vm_compute. reflexivity. Qed.
Lemma m_method : seen (startM solver0 10 false (Some setting_path) (Some out_dir) (world "typo" [])) =
  (Some (-1), (lines ["Setting file: /home/case/settings.yml"; "Output directory: /home/out"]),
   (lines ["Invalid pressure calculation method: Explicitly"; "Please select either Implicit or Explicit."]))%string.
Proof. vm_compute. reflexivity. Qed.
Lemma m_solver : seen (startM no_solution 10 false (Some setting_path) (Some out_dir) (world "implicit" [])) =
  (Some (-1), (lines ["Setting file: /home/case/settings.yml"; "Output directory: /home/out"; ""; "*** START SIMULATION ***"]),
   (lines ["Pressure calculation failed."]))%string.
Proof. vm_compute. reflexivity. Qed.
Lemma m_folder : seen (startM solver0 10 false (Some setting_path) (Some out_dir) (world "good" [(outputPath out_dir "csv" 0, Folder)])) =
  (Some (-1), (lines ["Setting file: /home/case/settings.yml"; "Output directory: /home/out"; ""; "*** START SIMULATION ***"]),
   (lines ["cannot write ""/home/out/csv/output_0000.csv"""]))%string.
Proof. vm_compute. reflexivity. Qed.
Lemma m_good : seen (startM solver0 10 false (Some setting_path) (Some out_dir) (world "good" [])) =
  (Some (0), (lines ["Setting file: /home/case/settings.yml"; "Output directory: /home/out"; ""; "*** START SIMULATION ***"; "1: dt=0.001s   t=0.001s   fin=0.0s   elapsed=0h 00m 0s   remain=0h 00m 0s   ave=0.000s/step   last=0.000s/step   out=1files   Courant=0.00"; ""; "Total Simulation time = 0h 00m 5s"; ""; "*** END SIMULATION ***"]),
   (lines ["   1: t=0.001s"]))%string.
Proof. vm_compute. reflexivity. Qed.
Lemma m_second : seen (startM solver0 10 false (Some setting_path) (Some out_dir) (world "good" [(outputPath out_dir "csv" 1, Folder)])) =
  (Some (-1), (lines ["Setting file: /home/case/settings.yml"; "Output directory: /home/out"; ""; "*** START SIMULATION ***"; "1: dt=0.001s   t=0.001s   fin=0.0s   elapsed=0h 00m 0s   remain=0h 00m 0s   ave=0.000s/step   last=0.000s/step   out=1files   Courant=0.00"]),
   (lines ["   1: t=0.001s"; "cannot write ""/home/out/csv/output_0001.csv"""]))%string.
Proof. vm_compute. reflexivity. Qed.

(** the run [r] ends with exit(-1) and has printed these texts *)
Definition stops_saying (r : filesystem * list message * outcome (@sim F64)) (cout cerr : string) : Prop :=
  exists fs' w, r = (fs', w, Exit (-1)) /\ String.concat "" (map (sayCout "?") w) = cout /\ String.concat "" (map (sayCerr "?" "Usage") w) = cerr.
Definition completes_saying (r : filesystem * list message * outcome (@sim F64)) (cout cerr : string) : Prop :=
  exists fs' w st, r = (fs', w, Ok st) /\ String.concat "" (map (sayCout "?") w) = cout /\ String.concat "" (map (sayCerr "?" "Usage") w) = cerr.
Lemma seen_stops r cout cerr : seen r = (Some (-1), cout, cerr) -> stops_saying r cout cerr.
Proof. destruct r as [[f w] [a|u| |c| |]]; unfold seen; intros H; try discriminate H. assert (c = -1) by congruence. exists f, w. split; [congruence|]. split; congruence. Qed.
Lemma seen_completes r cout cerr : seen r = (Some 0, cout, cerr) -> (forall f w, r <> (f, w, Exit 0)) -> completes_saying r cout cerr.
Proof. destruct r as [[f w] [a|u| |c| |]]; unfold seen; intros H K; try discriminate H; [|exfalso; apply (K f w); congruence]. exists f, w, a. split; [reflexivity|]. split; congruence. Qed.
Lemma m_good_ok : forall f w, startM solver0 10 false (Some setting_path) (Some out_dir) (world "good" []) <> (f, w, Exit 0).
Proof.
  assert (H : match snd (startM solver0 10 false (Some setting_path) (Some out_dir) (world "good" [])) with Exit _ => false | _ => true end = true) by (vm_compute; reflexivity).
  intros f w E. rewrite E in H. discriminate H.
Qed.
