(** * Vocabulary of the statements about the workflow (C85) *)
From Verif Require Import Types.
From Verif Require Export Workflow SpecScripts.
Open Scope list_scope.
Open Scope Z_scope.

(** a fresh checkout at [root], built: the program, the settings of the hydrostatic case, no
    results.  The particle file may be there or not; whatever it holds, it is replaced. *)
Definition cloned (root : path) (fs : filesystem) : Prop :=
  tree fs /\ (exists b, fs (root ++ [lit "build"; lit "mps"]) = Some (File b)) /\
  fs (root ++ [lit "input"; lit "hydrostatic"; lit "settings.yml"]) = Some (File (joined_lines hydrostatic_yml)) /\
  fs (root ++ [lit "input"; lit "hydrostatic"; lit "input.prof"]) <> Some Folder /\
  fs (root ++ [lit "input"; lit "hydrostatic"; lit "input.vtu"]) <> Some Folder /\
  fs (root ++ [lit "result"]) = None.
