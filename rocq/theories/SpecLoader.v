(** * Vocabulary of the statements about input and output of the whole program *)
From Verif Require Export Program SpecFiles.
Open Scope list_scope.
Open Scope Z_scope.

(** ** Settings *)
(** the value of the first entry with key [k] of a map *)
Definition entry_of (l : list (list ascii * node)) (k : list ascii) (v : node) : Prop :=
  exists l1 l2, l = l1 ++ (k, v) :: l2 /\ ~ In k (map fst l1).
Definition has_entry (y : node) (k : string) (v : node) : Prop := exists l, y = Map l /\ entry_of l (lit k) v.
Definition lacks (y : node) (k : string) : Prop :=
  match y with Scalar _ => False | Map l => ~ In (lit k) (map fst l) | _ => True end.
(** the entry [k] is a scalar that reads as [a] *)
Definition says {A} (conv : list ascii -> option A) (y : node) (k : string) (a : A) : Prop :=
  exists t, has_entry y k (Scalar t) /\ conv t = Some a.
Definition says_text (y : node) (k : string) (t : list ascii) : Prop :=
  has_entry y k (Scalar t) \/ (has_entry y k Null /\ t = lit "null").
(** the entry [k], if there is one, reads as [a]; otherwise [a] is the default [d] *)
Definition says_or {A} (conv : list ascii -> option A) (y : node) (k : string) (d a : A) : Prop :=
  says conv y k a \/ (lacks y k /\ a = d).
(** element [i] of the entry [k] *)
Definition element (v : node) (i : nat) (w : node) : Prop :=
  match v with
  | Seq l => nth_error l i = Some w
  | Map l => entry_of l (showZ (Z.of_nat i)) w
  | _ => False
  end.
Definition says_at {A} (conv : list ascii -> option A) (y : node) (k : string) (i : nat) (a : A) : Prop :=
  exists v t, has_entry y k v /\ element v i (Scalar t) /\ conv t = Some a.

(** ** Paths in the settings *)
(** [leads p ns q]: following the names [ns] from the directory [p] one arrives at [q] *)
Inductive leads : path -> list name -> path -> Prop :=
| leads_here p : leads p [] p
| leads_stay p n ns q : n = [] \/ n = ["."%char] -> leads p ns q -> leads p (n :: ns) q
| leads_up p m ns q : leads p ns q -> leads (p ++ [m]) (["."%char; "."%char] :: ns) q
| leads_top ns q : leads [] ns q -> leads [] (["."%char; "."%char] :: ns) q
| leads_down p n ns q : n <> [] -> n <> ["."%char] -> n <> ["."%char; "."%char] -> leads (p ++ [n]) ns q -> leads p (n :: ns) q.
(** the names with slashes between them *)
Definition joined (n : name) (ns : list name) : list ascii := n ++ flat_map (fun m => "/"%char :: m) ns.
(** the text [t] in a settings file of the directory [dir] means the path [q]; a text that
    begins with a slash is absolute *)
Definition denotes (dir : path) (t : list ascii) (q : path) : Prop :=
  exists (n : name) (ns : list name), t = joined n ns /\ (forall m, In m (n :: ns) -> ~ In "/"%char m) /\
    ((n = [] /\ ns <> [] /\ leads [] ns q) \/ ((n <> [] \/ ns = []) /\ leads dir (n :: ns) q)).

Section Settings.
Context {N : Num}.
Local Open Scope num_scope.
Variable as_int : list ascii -> option Z.
Variable as_dbl : list ascii -> option num.
Variable as_bool : list ascii -> option bool.

(** the largest of three numbers, as far as < tells *)
Definition largest (a b c m : num) : Prop :=
  (m = a \/ m = b \/ m = c) /\ nlt m a = false /\ nlt m b = false /\ nlt m c = false.

(** the settings [s], the particle file [pp] and the number of cores stand in [y] *)
Definition settings_in (y : node) (dir : path) (s : settings) (pp : path) (cores : Z) : Prop :=
  says as_int y "dim" (s_dim s) /\
  says as_dbl y "particleDistance" (s_l0 s) /\
  says as_dbl y "dt" (s_dt s) /\
  says as_dbl y "endTime" (s_endTime s) /\
  says as_dbl y "outputPeriod" (s_outputPeriod s) /\
  says as_dbl y "cflCondition" (s_cfl s) /\
  says as_int y "numPhysicalCores" cores /\
  says as_dbl y "defaultDensity" (s_rho0 s) /\
  says as_dbl y "kinematicViscosity" (s_nu s) /\
  says_or as_bool y "xyz-input" true (s_xyzInput s) /\
  says_at as_dbl y "gravity" 0 (vx (s_gravity s)) /\
  says_at as_dbl y "gravity" 1 (vy (s_gravity s)) /\
  says_at as_dbl y "gravity" 2 (vz (s_gravity s)) /\
  says_or as_dbl y "gravity-norm" #0 (s_gNorm s) /\
  says_or as_dbl y "gravity-angle" #0 (s_gAngle s) /\
  says as_dbl y "surfaceDetection-numberDensity-threshold" (s_sd_nd s) /\
  says as_bool y "surfaceDetection-particleDistribution" (s_sd_dist s) /\
  says as_dbl y "surfaceDetection-particleDistribution-threshold" (s_sd_dist_thr s) /\
  (exists t, says_text y "pressureCalculationMethod" t /\ s_method s = text t) /\
  says as_dbl y "compressibility" (s_compress s) /\
  says as_dbl y "relaxationCoefficientForPressure" (s_relax s) /\
  says as_dbl y "soundSpeed" (s_c s) /\
  says as_dbl y "coefficientOfRestitution" (s_restitution s) /\
  (exists r, says as_dbl y "collisionDistanceRatio" r /\ s_colDist s = r * s_l0 s) /\
  (exists r, says as_dbl y "radiusRatioForNumberDensity" r /\ s_reN s = r * s_l0 s) /\
  (exists r, says as_dbl y "radiusRatioForGradient" r /\ s_reG s = r * s_l0 s) /\
  (exists r, says as_dbl y "radiusRatioForLaplacian" r /\ s_reL s = r * s_l0 s) /\
  (let d := s_domain s in
   says_at as_dbl y "domainMin" 0 (xMin d) /\ says_at as_dbl y "domainMax" 0 (xMax d) /\
   says_at as_dbl y "domainMin" 1 (yMin d) /\ says_at as_dbl y "domainMax" 1 (yMax d) /\
   says_at as_dbl y "domainMin" 2 (zMin d) /\ says_at as_dbl y "domainMax" 2 (zMax d) /\
   xLength d = xMax d - xMin d /\ yLength d = yMax d - yMin d /\ zLength d = zMax d - zMin d) /\
  (exists t, says_text y "particlesPath" t /\ denotes dir t pp) /\
  s_particlesPath s = path_text pp /\
  says_or as_bool y "outputVtkInBinary" false (s_vtkBinary s).
End Settings.

(** ** File system *)
(** what was there is still there, unchanged *)
Definition preserved (fs fs' : filesystem) : Prop := forall p e, fs p = Some e -> fs' p = Some e.
(** the three kinds of output files *)
Definition kinds : list string := ["prof"; "vtu"; "csv"]%string.
(** [fs'] differs from [fs] by new entries directly in [out] and by output files in the
    subdirectories of [out] *)
Definition only_output (out : path) (fs fs' : filesystem) : Prop :=
  forall p, fs' p = fs p
    \/ (fs p = None /\ exists n, p = out ++ [n])
    \/ (fs p <> Some Folder /\ exists kind k, In kind kinds /\ 0 <= k /\ p = outputPath out kind k).
(** the VTU file of an output: binary or ascii, as the settings say *)
Definition vtu_file (big bin : bool) (o : @output F64) (b : list ascii) : Prop :=
  let n0 := rv_n0 (m_rvN (o_mps o)) in
  (bin = true -> toVtuBinary big (o_time o) n0 (m_ps (o_mps o)) = Ok b) /\
  (bin = false -> b = toVtuAscii big (o_time o) n0 (m_ps (o_mps o))).
(** the three files of an output *)
Definition stored_in (big bin : bool) (out : path) (fs : filesystem) (o : @output F64) : Prop :=
  let t := o_time o in let ps := m_ps (o_mps o) in
  fs (outputPath out "prof" (o_number o)) = Some (File (toProf t ps)) /\
  (exists b, vtu_file big bin o b /\ fs (outputPath out "vtu" (o_number o)) = Some (File b)) /\
  fs (outputPath out "csv" (o_number o)) = Some (File (toCsv t ps)).
(** the output directory before the run: the three subdirectories are missing or
    directories, and no output name is taken by a directory *)
Definition room (out : path) (fs : filesystem) : Prop :=
  fs out = Some Folder /\
  forall kind, In kind kinds -> (fs (out ++ [lit kind]) = None \/ fs (out ++ [lit kind]) = Some Folder) /\ forall k, 0 <= k -> fs (outputPath out kind k) <> Some Folder.
(** the VTU file of an output can be written (the binary format has limits, see C42) *)
Definition vtu_fine (big bin : bool) (o : @output F64) : Prop :=
  exists b, vtu_file big bin o b.
