(** * The workflow: a checkout, a clock that is set back (C85) *)
From Coq Require Import Reals String.
From Verif Require Import LoaderCases SimCases StepCasesF EndingsCases GeneratorCases ScriptCases MessagesCases RunnerFacts WorkflowFacts.
From Verif Require Export SpecWorkflow.
Open Scope list_scope.
Open Scope Z_scope.
#[local] Remove Hints Rnum : typeclass_instances.

Definition only_root : filesystem := fun p => match p with [] => Some Folder | _ => None end.
Lemma root_tree : tree only_root.
Proof. split; [reflexivity|]. intros p n H. destruct p as [|a p]; [reflexivity|]. destruct H. reflexivity. Qed.
(** a fresh clone, built; the particle file is not the one of the generator *)
Definition clone_disk : filesystem :=
  put (put (put (put (put (put (put (put only_root ([] ++ [lit "home"]) Folder) ([lit "home"] ++ [lit "mps"]) Folder) (repo ++ [lit "build"]) Folder)
    ((repo ++ [lit "build"]) ++ [lit "mps"]) (File (lit "ELF"))) (repo ++ [lit "input"]) Folder) ((repo ++ [lit "input"]) ++ [lit "hydrostatic"]) Folder)
    ((repo ++ [lit "input"; lit "hydrostatic"]) ++ [lit "settings.yml"]) (File (joined_lines hydrostatic_yml))) ((repo ++ [lit "input"; lit "hydrostatic"]) ++ [lit "input.prof"]) (File (lit "old")).
Lemma clone_ok : cloned repo clone_disk.
Proof.
  split; [|split; [exists (lit "ELF"); reflexivity|split; [reflexivity|split; [discriminate|split; [discriminate|reflexivity]]]]].
  unfold clone_disk. repeat (apply tree_put; [|reflexivity|reflexivity]). exact root_tree.
Qed.

(** the run of [MessagesCases], from 0 to [fin] nanoseconds *)
Notation startW fin := (
  mainSay parseE read_int read_dbl read_bool read_int read_dbl fid fid c20 false false solver0 0 fin tickF 10 false (Some setting_path) (Some out_dir) (world "good" [])).
Definition completed (r : filesystem * list message * outcome (@sim F64)) : bool := match snd r with Ok _ => true | _ => false end.
Lemma completed_ok r : completed r = true -> exists f w st, r = (f, w, Ok st).
Proof. destruct r as [[f w] o]. unfold completed. cbn [snd]. destruct o as [st| | | | |]; try discriminate. intros _. now exists f, w, st. Qed.
Lemma set_back : completed (startW (-2000000000)) = true. Proof. vm_compute. reflexivity. Qed.
Lemma forwards : completed (startW 5000000000) = true. Proof. vm_compute. reflexivity. Qed.
(** the files of that run *)
Definition appears (fs : filesystem) (kind : string) (z : Z) : bool :=
  let (fs', _) := program parseE read_int read_dbl read_bool read_int read_dbl fid fid c20 false false solver0 0 tickF 10 setting_path out_dir fs in
  match load parseE read_int read_dbl read_bool read_int read_dbl false setting_path out_dir fs with
  | (_, Ok i) => match @factoryCreate F64 fid fid c20 (i_settings i) (i_particles i), fs' (outputPath out_dir kind z), fs (outputPath out_dir kind z) with
                 | Ok _, Some (File _), None => true | _, _, _ => false end
  | _ => false
  end.
Lemma appears_spec fs kind z : appears fs kind z = true -> exists fs' o f1 i m,
  program parseE read_int read_dbl read_bool read_int read_dbl fid fid c20 false false solver0 0 tickF 10 setting_path out_dir fs = (fs', o) /\
  load parseE read_int read_dbl read_bool read_int read_dbl false setting_path out_dir fs = (f1, Ok i) /\
  @factoryCreate F64 fid fid c20 (i_settings i) (i_particles i) = Ok m /\ fs' (outputPath out_dir kind z) <> fs (outputPath out_dir kind z).
Proof.
  unfold appears. destruct (program _ _ _ _ _ _ _ _ _ _ _ _ _ _ _ _ _ fs) as [fs' o] eqn:P. destruct (load _ _ _ _ _ _ _ _ _ fs) as [f1 li] eqn:L.
  destruct li as [i| | | | |]; try discriminate. destruct (factoryCreate _ _ _ _ _) as [m| | | | |] eqn:F; try discriminate.
  destruct (fs' (outputPath out_dir kind z)) as [[b|]|] eqn:A; try discriminate. destruct (fs (outputPath out_dir kind z)) eqn:B; try discriminate.
  intros _. exists fs', o, f1, i, m. split; [reflexivity|]. split; [reflexivity|]. split; [exact F|]. rewrite A. discriminate.
Qed.
Lemma good_appears : appears (world "good" []) "vtu" 1 = true. Proof. vm_compute. reflexivity. Qed.
Lemma clock_back : exists parse as_int as_dbl as_bool cell_int cell_dbl fsin fcos M_PI big S real fin clk fuel dbg setting out fs fs' w st,
  mainSay parse as_int as_dbl as_bool cell_int cell_dbl fsin fcos M_PI big dbg S real fin clk fuel false (Some setting) (Some out) fs = (fs', w, Ok st) /\
  in_int64 (fin - real) = true /\ has_blank setting = false /\ has_blank out = false /\ forall what, calculationTime (consoleText what w) = [].
Proof.
  destruct (completed_ok _ set_back) as (f & w & st & H).
  assert (B : has_blank setting_path = false /\ has_blank out_dir = false) by (split; reflexivity).
  assert (D : -2000000000 - 0 <= - 1000000000) by lia.
  pose proof (fun what => took_nothing _ _ _ _ _ _ _ _ _ _ _ _ _ _ _ what _ _ _ _ _ _ _ H (proj1 B) (proj2 B) D) as T.
  exists parseE, read_int, read_dbl, read_bool, read_int, read_dbl, fid, fid, c20, false, solver0, 0, (-2000000000), tickF, 10%nat, false, setting_path, out_dir, (world "good" []), f, w, st.
  split; [exact H|]. clear H. split; [reflexivity|]. split; [exact (proj1 B)|]. split; [exact (proj2 B)|]. exact T.
Qed.
