(** * Vocabulary of the statements about the shell scripts (C76, C77) *)
From Verif Require Export Scripts SpecShipped.
Open Scope list_scope.
Open Scope Z_scope.

(** a word: not empty, without spaces and newlines *)
Definition word_text (w : list ascii) : Prop := w <> [] /\ ~ In sp w /\ ~ In nl w.
(** the line [l] consists of the words [ws], with spaces between them and perhaps around *)
Inductive laid : list ascii -> list (list ascii) -> Prop :=
| laid_last a b w : word_text w -> laid (repeat sp a ++ w ++ repeat sp b) [w]
| laid_more a w l ws : word_text w -> laid l ws -> laid (repeat sp a ++ w ++ sp :: l) (w :: ws).
(** a row the script converts: its first word is a numeral *)
Definition numeral (w : list ascii) : bool := negb (List.length w =? 0)%nat && forallb (fun c => (48 <=? N_of_ascii c)%N && (N_of_ascii c <=? 57)%N) w.
Definition numbered (ws : list (list ascii)) : bool := numeral (hd [] ws).
Definition prof_columns : list (list ascii) := map lit ["type"; "x"; "y"; "z"; "vx"; "vy"; "vz"]%string.

(** [p] does not exist or is a directory *)
Definition usable (fs : filesystem) (p : path) : Prop := fs p = None \/ fs p = Some Folder.
(** a checkout of the repository at [root], built, with the files of a case; the place of
    the results is free or a directory *)
Definition checkout (root : path) (project : name) (yml : list string) (prof : list ascii) (fs : filesystem) : Prop :=
  (exists b, fs (root ++ [lit "build"; lit "mps"]) = Some (File b)) /\
  fs (root ++ [lit "input"; project; lit "settings.yml"]) = Some (File (joined_lines yml)) /\
  fs (root ++ [lit "input"; project; lit "input.prof"]) = Some (File prof) /\
  usable fs (root ++ [lit "result"]) /\ usable fs (root ++ [lit "result"; project]).
(** [q] is somewhere below [p] *)
Definition below (p q : path) : Prop := exists n r, q = p ++ n :: r.
(** [q] is what the shell's * finds in [p], or something in it *)
Definition visible (p q : path) : Prop := exists c n r, c <> "."%char /\ q = p ++ (c :: n) :: r.
(** one run of the script after another, each with any program at all *)
Inductive runs_of (root : path) (project : name) : filesystem -> filesystem -> Prop :=
| runs_none fs : runs_of root project fs fs
| runs_more fs fs1 parse as_int as_dbl as_bool cell_int cell_dbl fsin fcos pi big dbg S real clk fuel err con cwd : runs_of root project fs fs1 ->
    runs_of root project fs (fst (runner (program parse as_int as_dbl as_bool cell_int cell_dbl fsin fcos pi big dbg S real clk fuel) err con root cwd project fs1)).
