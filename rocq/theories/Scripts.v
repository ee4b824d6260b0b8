(** * The shell scripts (scripts/prof_to_csv.sh, scripts/runner.sh, scripts/safe_runner.sh)

    bash in the C locale; [[0-9]] are the ten digits, the builtin echo does not interpret
    backslashes (xpg_echo is off), files contain no NUL (which bash drops).  The utilities
    head, tail, mkdir, rm, dirname do what POSIX says.  Not modelled: the usage message, an
    input file that is also the output file, and the PowerShell script runner.ps1. *)
From Verif Require Export Program.
Open Scope list_scope.
Open Scope Z_scope.

(** ** scripts/prof_to_csv.sh *)
(** the text up to and with the n-th newline ([head -n]), and the rest ([tail -n +(n+1)]) *)
Fixpoint head_tail (n : nat) (l : list ascii) : list ascii * list ascii :=
  match n, l with
  | O, _ => ([], l)
  | _, [] => ([], [])
  | S n', c :: r => if Ascii.eqb c nl then let (a, b) := head_tail n' r in (c :: a, b)
                    else let (a, b) := head_tail n r in (c :: a, b)
  end.
(** the lines for which [read] succeeds: those that end in a newline.  (A last line
    without newline is stored in the variables, but [read] fails and the loop ends.) *)
Fixpoint read_lines (cur l : list ascii) : list (list ascii) :=
  match l with
  | [] => []
  | c :: r => if Ascii.eqb c nl then rev cur :: read_lines [] r else read_lines (c :: cur) r
  end.
(** splitting at IFS=" " *)
Fixpoint drop_spaces (l : list ascii) : list ascii :=
  match l with
  | [] => []
  | c :: r => if Ascii.eqb c sp then drop_spaces r else l
  end.
Definition trim (l : list ascii) : list ascii := drop_spaces (rev (drop_spaces (rev l))).
Fixpoint upto_space (l : list ascii) : list ascii * list ascii :=
  match l with
  | [] => ([], [])
  | c :: r => if Ascii.eqb c sp then ([], r) else let (a, b) := upto_space r in (c :: a, b)
  end.
(** [read -r] with n + 1 variables: the last one gets the rest of the line *)
Fixpoint read_words (n : nat) (l : list ascii) : list (list ascii) :=
  match n with
  | O => [trim l]
  | S n' => let (a, b) := upto_space (drop_spaces l) in a :: read_words n' b
  end.
(** the test of line 21 *)
Definition all_digits (l : list ascii) : bool := match l with [] => false | _ => forallb is_digit l end.
Fixpoint commas (l : list (list ascii)) : list ascii :=
  match l with
  | [] => []
  | [a] => a
  | a :: r => a ++ comma :: commas r
  end.
(** the loop body, scripts/prof_to_csv.sh:19-26 *)
Definition convert_line (l : list ascii) : list ascii :=
  let ws := read_words 6 l in
  if all_digits (hd [] ws) then commas ws ++ [nl] else [].
Definition prof_to_csv (file : list ascii) : list ascii :=
  let (two, rest) := head_tail 2 file in
  two ++ lit "type,x,y,z,vx,vy,vz" ++ [nl] ++ flat_map convert_line (read_lines [] rest).

(** ** scripts/runner.sh and scripts/safe_runner.sh *)
(** mkdir -p (runner.sh:16, safe_runner.sh:28): creates what is missing; fails at something that is no directory *)
Fixpoint mkdir_p (done rest : path) (fs : filesystem) : filesystem * bool :=
  match rest with
  | [] => (fs, true)
  | n :: r =>
      let p := done ++ [n] in
      match fs p with
      | Some Folder => mkdir_p p r fs
      | Some (File _) => (fs, false)
      | None => mkdir_p p r (put fs p Folder)
      end
  end.
(** what is at or below a name in [out] that the pattern * matches (no dot in front) *)
Fixpoint starred (out q : path) : bool :=
  match out, q with
  | [], (c :: _) :: _ => negb (Ascii.eqb c ".")
  | a :: out', b :: q' => if list_eq_dec ascii_dec a b then starred out' q' else false
  | _, _ => false
  end.
(** rm -rf out/* (runner.sh:20) *)
Definition remove_all (out : path) (fs : filesystem) : filesystem := fun q => if starred out q then None else fs q.
(** runner.sh:13, safe_runner.sh:25.  A blank in the text by which the script is called: the unquoted $(dirname $0) becomes
    several words, cd fails (bash 4.4 or later) and the script goes on where it is *)
Definition is_blank (c : ascii) : bool := Ascii.eqb c " " || Ascii.eqb c (ascii_of_N 9) || Ascii.eqb c (ascii_of_N 10).
Definition has_blank (p : path) : bool := existsb (existsb is_blank) p.

Section Runner.
(** the program, with all its arguments but the two paths *)
Variable mps : path -> path -> act (@sim F64).
(** what goes to the log files; it is written while the program runs, which does not look at them *)
Variable err con : list ascii.

(** the last command (runner.sh:25, safe_runner.sh:31): 2> error.log, | tee console.log.  Without error.log the program is
    not started (1); 127: there is no such program. *)
Definition launch (base out : path) (setting : path) : act (@sim F64) := fun fs =>
  match fs out, fs (out ++ [lit "error.log"]), fs (out ++ [lit "console.log"]) with
  | Some Folder, Some Folder, _ => (fs, Exit 1)
  | Some Folder, _, c =>
      let fs1 := put fs (out ++ [lit "error.log"]) (File err) in
      let fs2 := match c with Some Folder => fs1 | _ => put fs1 (out ++ [lit "console.log"]) (File con) end in
      match fs (base ++ [lit "build"; lit "mps"]) with
      | Some (File _) => mps setting out fs2
      | _ => (fs2, Exit 127)
      end
  | _, _, _ => (fs, Exit 1)
  end.
(** scripts/runner.sh:1-25, called by the absolute path root/scripts/runner.sh while the current directory is [cwd];
    the script has project = "dambreak" *)
Definition runner (root cwd : path) (project : name) : act (@sim F64) := fun fs =>
  let base := if has_blank root then cwd else root in
  let out := base ++ [lit "result"; project] in
  let fs1 := fst (mkdir_p base [lit "result"; project] fs) in
  launch base out (base ++ [lit "input"; project; lit "settings.yml"]) (remove_all out fs1).
(** scripts/safe_runner.sh:11-31; [folder] is <timestamp>-<project>-<note>, without blanks *)
Definition safe_runner (root cwd : path) (project folder : name) : act (@sim F64) := fun fs =>
  let base := if has_blank root then cwd else root in
  let out := base ++ [lit "result"; folder] in
  let fs1 := fst (mkdir_p base [lit "result"; folder] fs) in
  launch base out (base ++ [lit "input"; project; lit "settings.yml"]) fs1.
End Runner.
