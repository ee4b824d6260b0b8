(** * The workflow that runs the hydrostatic case (.github/workflows/calc-hydrostatic.yml)

    The steps from "Generate input" on, in a checkout that has been built: the commands run
    under [bash -e] without pipefail, as GitHub runs steps that name no shell, so that the
    status of a pipeline is that of its last command.  The build is a Release build, in which
    assert does nothing.  Not modelled: reading the VTU file and drawing (meshio, matplotlib,
    ci/visualize_vtk.py; only a missing file fails), the upload (ci/upload_image.py) and the
    comment itself.  grep takes the log for text. *)
From Coq Require Import String.
From Verif Require Export Messages Generator Scripts.
Open Scope list_scope.
Open Scope Z_scope.

(** ** grep -o 'Total Simulation time = [0-9]\+h [0-9]\+m [0-9]\+s', calc-hydrostatic.yml:64 *)
Definition total_label : list ascii := lit "Total Simulation time = ".
Fixpoint after_text (t l : list ascii) : option (list ascii) :=
  match t, l with
  | [], _ => Some l
  | a :: t', b :: l' => if Ascii.eqb a b then after_text t' l' else None
  | _, [] => None
  end.
(** a number, as long as possible: the digits and the rest *)
Fixpoint number_at (l : list ascii) : list ascii * list ascii :=
  match l with
  | c :: r => if is_digit c then let (a, b) := number_at r in (c :: a, b) else ([], l)
  | [] => ([], [])
  end.
(** a number and then [t]: the matched text and the rest *)
Definition number_then (t l : list ascii) : option (list ascii * list ascii) :=
  let (a, b) := number_at l in
  match a with
  | [] => None
  | _ => match after_text t b with Some r => Some (a ++ t, r) | None => None end
  end.
(** the match at the beginning of [l], without the label *)
Definition total_at (l : list ascii) : option (list ascii) :=
  match after_text total_label l with
  | None => None
  | Some r =>
      match number_then (lit "h ") r with
      | None => None
      | Some (h, r) =>
          match number_then (lit "m ") r with
          | None => None
          | Some (m, r) => match number_then (lit "s") r with Some (s, _) => Some (h ++ m ++ s) | None => None end
          end
      end
  end.
(** all matches, from left to right, without overlap, and with the label removed by sed
    (calc-hydrostatic.yml:64); [skip] characters belong to the match before.  No match goes
    over the end of a line, since the pattern has no newline. *)
Fixpoint totals (skip : nat) (l : list ascii) : list (list ascii) :=
  match l with
  | [] => []
  | _ :: r =>
      match skip with
      | S k => totals k r
      | O => match total_at l with
             | Some t => t :: totals (List.length total_label + List.length t - 1) r
             | None => totals O r
             end
      end
  end.
(** calculationTime: one match per line, without newline at the end *)
Fixpoint one_a_line (ls : list (list ascii)) : list ascii :=
  match ls with
  | [] => []
  | [l] => l
  | l :: r => l ++ nl :: one_a_line r
  end.
Definition calculationTime (log : list ascii) : list ascii := one_a_line (totals O log).

(** ** The job *)
(** how it ends: a step fails; the comment is written, with the picture of the VTU file
    [picture] and the text [took]; undefined behaviour; it does not end *)
Inductive job := Failed (step : string) | Commented (picture took : list ascii) | Unknown | Endless.
Definition go_on {A} (o : outcome A) (next : job) : job :=
  match o with Undef _ => Unknown | Diverge => Endless | _ => next end.

Section Workflow.
Variable parse : list ascii -> option node.
Variable as_int : list ascii -> option Z.
Variable as_dbl : list ascii -> option f64.
Variable as_bool : list ascii -> option bool.
Variable cell_int : list ascii -> option Z.
Variable cell_dbl : list ascii -> option f64.
Variables fsin fcos : f64 -> f64.
Variable M_PI : f64.
Variable big : bool.
Variable S : @solver F64.
Variables real fin : Z.
Variable clk : nat -> Z * Z.
Variable fuel : nat.
(** what the exceptions and the usage of argparse say *)
Variables what usage : string.

Definition consoleText (w : list message) : list ascii := concat (map (fun e => lit (sayCout what e)) w).
Definition errorText (w : list message) : list ascii := concat (map (fun e => lit (sayCerr what usage e)) w).
(** a log file, unless there is a directory of that name *)
Definition put_log (fs : filesystem) (p : path) (b : list ascii) : filesystem :=
  match fs p with Some Folder => fs | _ => put fs p (File b) end.

(** the step "Run", calc-hydrostatic.yml:48-53: what is on disk afterwards and how the program
    ended.  If error.log cannot be opened the program is not started. *)
Definition runStep (root out : path) (fs : filesystem) : filesystem * outcome sim :=
  let err := out ++ [lit "error.log"] in
  let con := out ++ [lit "console.log"] in
  let fs1 := put_log fs con [] in
  match fs1 err, fs1 (root ++ [lit "build"; lit "mps"]) with
  | Some Folder, _ => (fs1, Exit 1)
  | _, Some (File _) =>
      let '(fs2, w, o) := mainSay parse as_int as_dbl as_bool cell_int cell_dbl fsin fcos M_PI big false S real fin clk fuel false
        (Some (root ++ [lit "input"; lit "hydrostatic"; lit "settings.yml"])) (Some out) (put_log fs1 err []) in
      (put_log (put_log fs2 con (consoleText w)) err (errorText w), o)
  | _, _ => (put_log fs1 err [], Exit 127)
  end.
(** the step "Generate input", calc-hydrostatic.yml:42-43: the answer to the question whether
    to overwrite is y; the program runs in the checkout *)
Definition generateStep (root : path) : act unit := generate big false 1 [lit "y"] root "hydrostatic" (@hydrostatic F64).
(** "Visualize results" and the comment, calc-hydrostatic.yml:55-65 *)
Definition commentStep (out : path) (fs : filesystem) : job :=
  match fs (out ++ [lit "vtu"; lit "output_0100.vtu"]), fs (out ++ [lit "console.log"]) with
  | Some (File picture), Some (File log) => Commented picture (calculationTime log)
  | _, _ => Failed "Visualize results"
  end.
(** calc-hydrostatic.yml:42-65, in the checkout [root] (github.workspace); tee fails if
    console.log is a directory *)
Definition hydrostaticJob (root : path) (fs : filesystem) : filesystem * job :=
  let out := root ++ [lit "result"; lit "hydrostatic"] in
  let (fs1, o1) := generateStep root fs in
  match o1 with
  | Ok _ =>
      let (fs2, made) := mkdir_p root [lit "result"; lit "hydrostatic"] fs1 in
      if made then
        let (fs3, o) := runStep root out fs2 in
        (fs3, go_on o match fs2 (out ++ [lit "console.log"]) with Some Folder => Failed "Run" | _ => commentStep out fs3 end)
      else (fs2, Failed "Create result directory")
  | _ => (fs1, go_on o1 (Failed "Generate input"))
  end.
End Workflow.
