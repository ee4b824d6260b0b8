(** * Vocabulary of C82: messages that announce the end of the program, and their causes *)
From Coq Require Import String.
From Verif Require Export Messages SpecEndings.
Open Scope list_scope.
Open Scope Z_scope.
#[local] Remove Hints Rnum : typeclass_instances.

(** the messages that say why the program stops *)
Definition error (e : message) : Prop :=
  match e with SettingFile _ | OutputDirectory _ | Event _ => False | _ => True end.

(** what the message says is so: of the command line ... *)
Definition wrong_arguments (fs : filesystem) (setting out : option path) (e : message) : Prop :=
  match e with
  | NoSetting p => setting = Some p /\ fs p = None
  | NoOutput p => out = Some p /\ fs p = None
  | BadArguments => setting = None \/ out = None \/ exists p b, out = Some p /\ fs p = Some (File b)
  | _ => False
  end.
(** ... of the settings [s], the particle file [pp], the output directory and the solver *)
Definition wrong_input (S : @solver F64) (fs : filesystem) (setting out pp : path) (s : @settings F64) (e : message) : Prop :=
  match e with
  | Unsupported ext => ext = extension pp /\ ~ In ext formats
  | CannotRead kind p => p = pp /\ fs pp = None /\ extension pp = lit ("." ++ kind) /\ In kind ["prof"; "vtu"]%string
  | BinaryVtu p => p = pp /\ extension pp = lit ".vtu" /\ exists c, fs pp = Some c /\ occurs (lit "<AppendedData") (bytes_of c)
  | Taken p => (p = out ++ [filename setting] /\ fs p <> None) \/ (p = out ++ [filename pp] /\ (fs p <> None \/ filename pp = filename setting))
  | BadMethod m => m = s_method s /\ (m <> "Implicit" /\ m <> "Explicit")%string
  | SolverFailed => s_method s = "Implicit"%string /\ exists n ts b, S n ts b = None
  | CannotWrite p => exists kind k, In kind kinds /\ 0 <= k /\ p = outputPath out kind k /\ fs p = Some Folder
  | _ => False
  end.

(** no name in the path has a slash *)
Definition proper_path (p : path) : Prop := Forall (fun n => ~ In "/"%char n) p.
Definition proper_message (e : message) : Prop :=
  match e with
  | NoSetting p | NoOutput p | BinaryVtu p | Taken p | CannotWrite p => proper_path p
  | CannotRead kind p => In kind ["prof"; "vtu"]%string /\ proper_path p
  | BadArguments => False
  | _ => error e
  end.
(** the lines in which main repeats its two arguments *)
Definition headers (flip : bool) (setting out : path) : list message :=
  if flip then [OutputDirectory out; SettingFile setting] else [SettingFile setting; OutputDirectory out].

(** the lines for the options given, in the order of the command line *)
Definition given (flip : bool) (setting out : option path) : list message :=
  let s := match setting with Some p => [SettingFile p] | None => [] end in
  let o := match out with Some p => [OutputDirectory p] | None => [] end in
  if flip then o ++ s else s ++ o.
Definition header (e : message) : Prop := match e with SettingFile _ | OutputDirectory _ => True | _ => False end.
(** [said] is what is said about the options and [rest] what follows: all options, or those
    before the one that is wrong (an output path that is a file is still repeated) *)
Definition arguments_said (fs : filesystem) (options said rest : list message) : Prop :=
  said = options \/
  (exists p r, options = said ++ SettingFile p :: r /\ rest = [NoSetting p]) \/
  (exists p r, options = said ++ OutputDirectory p :: r /\ rest = [NoOutput p]) \/
  (exists p b q r, options = said ++ r /\ said = q ++ [OutputDirectory p] /\ fs p = Some (File b) /\ rest = [BadArguments]).

(** [tail] is no more than what one step prints, and at most one error *)
Definition is_report (e : @event F64) : bool := match e with Report _ _ _ _ _ _ _ _ _ _ => true | _ => false end.
Definition within_step (tail : list message) : Prop :=
  exists l errors, tail = map Event l ++ errors /\ (List.length errors <= 1)%nat /\ Forall error errors /\
    (List.length (filter is_report l) <= 1)%nat /\ Forall (fun e => match e with Start | End _ => False | _ => True end) l.

(** reading a text in double quotes, with backslash before special characters: the text and
    what follows it *)
Fixpoint unquote (l : list ascii) : option (list ascii * list ascii) :=
  match l with
  | [] => None
  | c :: r =>
      if Ascii.eqb c "092" then match r with [] => None | d :: r' => match unquote r' with Some (n, k) => Some (d :: n, k) | None => None end end
      else if Ascii.eqb c "034" then Some ([], r)
      else match unquote r with Some (n, k) => Some (c :: n, k) | None => None end
  end.
Definition contains (name t : string) : Prop := exists a b, t = (a ++ name ++ b)%string.
Definition quotes (name : list ascii) (t : string) : Prop := exists a r k, lit t = a ++ "034"%char :: r /\ unquote r = Some (name, k).
(** the text [t] names what the message is about *)
Definition names (e : message) (t : string) : Prop :=
  match e with
  | SettingFile p | OutputDirectory p | NoSetting p | NoOutput p => contains (path_text p) t
  | Unsupported ext => quotes ext t
  | CannotRead kind p => contains kind t /\ quotes (lit (path_text p)) t
  | BinaryVtu p | Taken p | CannotWrite p => quotes (lit (path_text p)) t
  | BadMethod m => contains m t
  | BadArguments | SolverFailed | Event _ => True
  end.
