(** * Runs that end early, for each way of ending *)
From Coq Require Import String.
From Verif Require Import SimCases StepCasesF LoaderCases.
From Verif Require Export EndingsFacts.
Open Scope list_scope.
Open Scope Z_scope.

Definition parseE (b : list ascii) : option node :=
  if text_eqb b (lit "good") then Some (confF "Explicit" "./in.prof")
  else if text_eqb b (lit "implicit") then Some (confF "Implicit" "./in.prof")
  else if text_eqb b (lit "typo") then Some (confF "Explicitly" "./in.prof")
  else if text_eqb b (lit "text") then Some (confF "Explicit" "./settings.yml")
  else if text_eqb b (lit "gone") then Some (confF "Explicit" "./gone.prof")
  else if text_eqb b (lit "csv") then Some (confF "Explicit" "./gone.csv")
  else if text_eqb b (lit "vtu") then Some (confF "Explicit" "./in.vtu")
  else if text_eqb b (lit "word") then Some (LoaderCases.conf "0.25" "soon" "0.001" "0.001" "4" "5" "Explicit" "./in.prof" "3")
  else if text_eqb b (lit "narrow") then Some (LoaderCases.conf "0.25" "0.001" "0.001" "0.001" "4" "5" "Explicit" "./in.prof" "1")
  else if text_eqb b (lit "tiny") then Some (LoaderCases.conf "1e-200" "0.001" "0.001" "0.001" "4" "5" "Explicit" "./in.prof" "3")
  else if text_eqb b (lit "4d") then Some (match confF "Explicit" "./in.prof" with Map (_ :: r) => Map (kv "dim" "4" :: r) | n => n end)
  else None.
Definition no_solution : @solver F64 := fun _ _ _ => None.
Definition startE (dbg : bool) (S : @solver F64) (fuel : nat) := program parseE read_int read_dbl read_bool read_int read_dbl fid fid c20 false dbg S 0 tickF fuel setting_path out_dir.
Definition vtu_path : path := case_dir ++ [lit "in.vtu"].
Definition raw_data : list ascii := lines_text [lit "<VTKFile>"; lit "  <AppendedData encoding='raw'>"].
Definition no_time : list ascii := lines_text [lit "<DataArray Name='Time'>"; lit "soon"].
Definition twice : list ascii := lines_text [lit "0"; lit "2"; lit "1 1 1 0 0 0 0"; lit "1 1 1 0 0 0 0"].

Definition same (a b : stop) : bool := match a, b with SA, SA | ST, ST | SD, SD => true | SE c, SE d => c =? d | _, _ => false end.
Definition ended (b : stop) (r : filesystem * outcome (@sim F64)) : bool := match stop_of (snd r) with Some b' => same b b' | _ => false end.
Definition ending (b : stop) : outcome (@sim F64) := match b with SU u => Undef u | SA => AssertFail | SE c => Exit c | ST => Throw | SD => Diverge end.
Lemma ended_iff b r : ended b r = true -> exists fs', r = (fs', ending b).
Proof.
  unfold ended. destruct r as [fs' [a|v| |c| |]]; cbn [snd stop_of]; destruct b; cbn [same ending]; try (intros H; discriminate H); intros H; exists fs'; try reflexivity.
  apply Z.eqb_eq in H. now subst.
Qed.
Ltac computed := match goal with |- exists fs', _ = (fs', ?o) => match o with
  | Exit ?c => apply (ended_iff (SE c)) | Throw => apply (ended_iff ST) | AssertFail => apply (ended_iff SA) | Diverge => apply (ended_iff SD) end end; vm_compute; reflexivity.
Notation ends_exit fs := (exists fs', startE false solver0 10 fs = (fs', Exit (-1))).
Notation ends_throw fs := (exists fs', startE false solver0 10 fs = (fs', Throw)).
Lemma no_solution_sized : sized no_solution. Proof. unfold sized, no_solution. intros; discriminate. Qed.
Lemma e_nothing : ends_exit (fun _ => None). Proof. computed. Qed.
Lemma e_gone : ends_exit (world "gone" []). Proof. computed. Qed.
Lemma e_text : ends_exit (world "text" []). Proof. computed. Qed.
Lemma e_binary : ends_exit (world "vtu" [(vtu_path, File raw_data)]). Proof. computed. Qed.
Lemma e_copy : ends_exit (world "good" [(out_dir ++ [lit "in.prof"], File [])]). Proof. computed. Qed.
Lemma e_method : ends_exit (world "typo" []). Proof. computed. Qed.
Lemma e_solver : exists fs', startE false no_solution 10 (world "implicit" []) = (fs', Exit (-1)). Proof. computed. Qed.
Lemma e_folder : ends_exit (world "good" [(outputPath out_dir "csv" 0, Folder)]). Proof. computed. Qed.
Lemma t_folder : ends_throw (put (world "good" []) setting_path Folder). Proof. computed. Qed.
Lemma t_yaml : ends_throw (world "{" []). Proof. computed. Qed.
Lemma t_word : ends_throw (world "word" []). Proof. computed. Qed.
Lemma t_csv : ends_throw (world "csv" []). Proof. computed. Qed.
Lemma t_time : ends_throw (world "vtu" [(vtu_path, File no_time)]). Proof. computed. Qed.
Lemma t_file : ends_throw (world "good" [(out_dir ++ [lit "vtu"], File [])]). Proof. computed. Qed.
Lemma a_twice : exists fs', startE true solver0 10 (put (world "good" []) particle_path (File twice)) = (fs', AssertFail). Proof. computed. Qed.
Notation ends_assert fs := (exists fs', startE true solver0 10 fs = (fs', AssertFail)).
Lemma a_narrow : ends_assert (world "narrow" []). Proof. computed. Qed.
Lemma a_tiny : ends_assert (world "tiny" []). Proof. computed. Qed.
Lemma a_4d : ends_assert (world "4d" []). Proof. computed. Qed.
Lemma d_fuel : exists fs', startE false solver0 0 (world "good" []) = (fs', Diverge). Proof. computed. Qed.

(** a state with a particle that is nowhere *)
Definition nowhere : list partF := [ pf 0 Fluid half half; pf 1 Fluid B754_nan half ].
Lemma nan_sound : exists m : @mps F64, sound m /\ sized solver0 /\ ~ numeric (m_ps m).
Proof.
  assert (K : match @factoryCreate F64 fid fid c20 (settingsF "Explicit") nowhere with Ok _ => true | _ => false end = true) by (vm_compute; reflexivity).
  destruct (@factoryCreate F64 fid fid c20 (settingsF "Explicit") nowhere) as [m|u| |c| |] eqn:E; try discriminate K.
  destruct (factory_sound _ _ _ _ _ _ E) as (SD & EP & _).
  - intros [|[|[|i]]] p H; simpl in H; inv H; reflexivity.
  - intros p H. simpl in H. intuition (subst; reflexivity).
  - exists m. split; [exact SD|]. split; [exact solver0_sized|]. rewrite EP. intros H. specialize (H (pf 1 Fluid B754_nan half)). destruct H as (H & _); [right; left; reflexivity|discriminate|]. discriminate H.
Qed.
