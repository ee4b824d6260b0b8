(** * The input: settings file, particle file, copies in the output directory
    (src/loader.cpp)

    Not modelled: the YAML syntax and the conversion of scalars ([parse], [as_int],
    [as_dbl], [as_bool] below stand for yaml-cpp, which is not part of /repo), symbolic
    links, permissions, a full disk, other programs changing the file system. *)
From Verif Require Export Files.
From Verif Require Export Types.
Open Scope list_scope.
Open Scope Z_scope.

(** ** Paths and files

    An absolute path without ".", ".." and symbolic links, as its list of names; the
    current directory is prefixed to relative arguments before the model starts. *)
Notation name := (list ascii).
Notation path := (list (list ascii)).
Definition path_dec (p q : path) : {p = q} + {p <> q} := list_eq_dec (list_eq_dec ascii_dec) p q.
Inductive item := File (bytes : list ascii) | Folder.
Definition filesystem := path -> option item.
Definition put (fs : filesystem) (p : path) (e : item) : filesystem := fun q => if path_dec q p then Some e else fs q.

Definition parent (p : path) : path := removelast p.      (* path::parent_path *)
Definition filename (p : path) : name := last p [].       (* path::filename *)
(** fs::exists *)
Definition there (fs : filesystem) (p : path) : bool := match fs p with Some _ => true | None => false end.

(** the part of a name from its last dot on *)
Fixpoint from_dot (l : name) : option name :=
  match l with
  | [] => None
  | c :: r => match from_dot r with Some s => Some s | None => if Ascii.eqb c "." then Some l else None end
  end.
(** path::extension: a dot that begins the name does not count *)
Definition extension (p : path) : name :=
  match filename p with
  | [] => []
  | _ :: r => match from_dot r with Some s => s | None => [] end
  end.

(** the names between the '/' of a text *)
Fixpoint names_from (cur : name) (l : list ascii) : list name :=
  match l with
  | [] => [rev cur]
  | c :: r => if Ascii.eqb c "/" then rev cur :: names_from [] r else names_from (c :: cur) r
  end.
(** fs::weakly_canonical(dir / text): an absolute text replaces dir; "." and empty names
    go, ".." removes the name before it.  (A text that ends in '/' or '/.' keeps an empty
    file name in C++ unless it names a directory; the model drops it.) *)
Definition walk (p : path) (n : name) : path :=
  if text_eqb n [] || text_eqb n (lit ".") then p else if text_eqb n (lit "..") then removelast p else p ++ [n].
Definition resolve (dir : path) (l : list ascii) : path :=
  fold_left walk (names_from [] l) (match l with c :: _ => if Ascii.eqb c "/" then [] else dir | [] => dir end).
Definition path_text (p : path) : string := text (flat_map (fun n => "/"%char :: n) p).

(** what reading a path gives; a directory can be opened, but nothing can be read from it *)
Definition bytes_of (e : item) : list ascii := match e with File b => b | Folder => [] end.

(** ** Settings *)

(** YAML::Node *)
Inductive node := Null | Scalar (t : list ascii) | Seq (l : list node) | Map (l : list (list ascii * node)).

Section Yaml.
Context {N : Num}.
Local Open Scope num_scope.
Variable as_int : list ascii -> option Z.
Variable as_dbl : list ascii -> option num.
Variable as_bool : list ascii -> option bool.

Fixpoint assoc (k : list ascii) (l : list (list ascii * node)) : option node :=
  match l with
  | [] => None
  | (k', v) :: r => if text_eqb k' k then Some v else assoc k r
  end.
(** node[key]; [None] is the undefined node.  A scalar cannot be subscripted. *)
Definition at_key (n : option node) (k : list ascii) : outcome (option node) :=
  match n with
  | Some (Map l) => Ok (assoc k l)
  | Some (Scalar _) => Throw
  | Some _ => Ok None
  | None => Throw
  end.
(** node[0], node[1], node[2]: in a map, the key that reads 0, 1, 2 *)
Definition at_index (n : option node) (i : nat) : outcome (option node) :=
  match n with
  | Some (Seq l) => Ok (nth_error l i)
  | Some (Map l) => Ok (assoc (showZ (Z.of_nat i)) l)
  | Some (Scalar _) => Throw
  | Some Null => Ok None
  | None => Throw
  end.
(** node.as<T>() *)
Definition as_ {A} (conv : list ascii -> option A) (n : option node) : outcome A :=
  match n with
  | Some (Scalar t) => match conv t with Some a => Ok a | None => Throw end
  | _ => Throw
  end.
Definition as_string (n : option node) : outcome (list ascii) :=
  match n with
  | Some (Scalar t) => Ok t
  | Some Null => Ok (lit "null")
  | _ => Throw
  end.
Definition req {A} (conv : list ascii -> option A) (y : node) (k : string) : outcome A :=
  n <- at_key (Some y) (lit k) ;; as_ conv n.
Definition req_string (y : node) (k : string) : outcome (list ascii) :=
  n <- at_key (Some y) (lit k) ;; as_string n.
Definition req_at {A} (conv : list ascii -> option A) (y : node) (k : string) (i : nat) : outcome A :=
  n <- at_key (Some y) (lit k) ;; m <- at_index n i ;; as_ conv m.
(** yaml[k] ? yaml[k].as<T>() : d *)
Definition opt {A} (conv : list ascii -> option A) (y : node) (k : string) (d : A) : outcome A :=
  n <- at_key (Some y) (lit k) ;;
  match n with Some _ => as_ conv n | None => Ok d end.

(** std::max({a, b, c}) *)
Definition max3 (a b c : num) : num := nmax (nmax a b) c.

(** Loader::loadSettingYaml, src/loader.cpp:70-144, in the order of the code; also the
    path of the particle file and numPhysicalCores, which is not in [settings].  [dbg]
    becomes [s_asserts]. *)
Definition loadSettingYaml (dbg : bool) (dir : path) (y : node) : outcome (settings * path * Z) :=
  dim <- req as_int y "dim" ;;
  l0 <- req as_dbl y "particleDistance" ;;
  dt <- req as_dbl y "dt" ;;
  endTime <- req as_dbl y "endTime" ;;
  outputPeriod <- req as_dbl y "outputPeriod" ;;
  cfl <- req as_dbl y "cflCondition" ;;
  cores <- req as_int y "numPhysicalCores" ;;
  rho0 <- req as_dbl y "defaultDensity" ;;
  nu <- req as_dbl y "kinematicViscosity" ;;
  xyz <- opt as_bool y "xyz-input" true ;;
  g0 <- req_at as_dbl y "gravity" 0 ;;
  g1 <- req_at as_dbl y "gravity" 1 ;;
  g2 <- req_at as_dbl y "gravity" 2 ;;
  gNorm <- opt as_dbl y "gravity-norm" #0 ;;
  gAngle <- opt as_dbl y "gravity-angle" #0 ;;
  sd_nd <- req as_dbl y "surfaceDetection-numberDensity-threshold" ;;
  sd_dist <- req as_bool y "surfaceDetection-particleDistribution" ;;
  sd_dist_thr <- req as_dbl y "surfaceDetection-particleDistribution-threshold" ;;
  method <- req_string y "pressureCalculationMethod" ;;
  compress <- req as_dbl y "compressibility" ;;
  relax <- req as_dbl y "relaxationCoefficientForPressure" ;;
  c <- req as_dbl y "soundSpeed" ;;
  colRatio <- req as_dbl y "collisionDistanceRatio" ;;
  restitution <- req as_dbl y "coefficientOfRestitution" ;;
  rN <- req as_dbl y "radiusRatioForNumberDensity" ;;
  rG <- req as_dbl y "radiusRatioForGradient" ;;
  rL <- req as_dbl y "radiusRatioForLaplacian" ;;
  let reN := rN * l0 in let reG := rG * l0 in let reL := rL * l0 in
  x0 <- req_at as_dbl y "domainMin" 0 ;;
  x1 <- req_at as_dbl y "domainMax" 0 ;;
  y0 <- req_at as_dbl y "domainMin" 1 ;;
  y1 <- req_at as_dbl y "domainMax" 1 ;;
  z0 <- req_at as_dbl y "domainMin" 2 ;;
  z1 <- req_at as_dbl y "domainMax" 2 ;;
  rel <- req_string y "particlesPath" ;;
  let pp := resolve dir rel in
  bin <- opt as_bool y "outputVtkInBinary" false ;;
  Ok (mkS dbg dim l0 dt endTime outputPeriod cfl
        (mkDom x0 x1 y0 y1 z0 z1 (x1 - x0) (y1 - y0) (z1 - z0))
        nu rho0 xyz (mkV g0 g1 g2) gNorm gAngle sd_nd sd_dist sd_dist_thr (text method) compress relax c
        (colRatio * l0) restitution reN reG reL (max3 reN reG reL) (path_text pp) bin,
      pp, cores).
End Yaml.

(** ** Loading *)

(** code that works on the file system *)
Definition act (A : Type) := filesystem -> filesystem * outcome A.
Definition ret {A} (o : outcome A) : act A := fun fs => (fs, o).
Definition after {A B} (m : act A) (k : A -> act B) : act B := fun fs =>
  match m fs with
  | (fs', Ok a) => k a fs'
  | (fs', Undef u) => (fs', Undef u)
  | (fs', AssertFail) => (fs', AssertFail)
  | (fs', Exit c) => (fs', Exit c)
  | (fs', Throw) => (fs', Throw)
  | (fs', Diverge) => (fs', Diverge)
  end.
Notation "x <~ m ;; k" := (after m (fun x => k)) (at level 61, m at next level, right associativity).
Notation "' p <~ m ;; k" := (after m (fun p => k)) (at level 61, p pattern, m at next level, right associativity).

(** fs::copy_file onto a path that does not exist *)
Definition copy_file (src dst : path) : act unit := fun fs =>
  match fs src, fs (parent dst) with
  | Some (File b), Some Folder => (put fs dst (File b), Ok tt)
  | _, _ => (fs, Throw)
  end.
(** Loader::copyInputFileToOutputDirectory, src/loader.cpp:60-68 *)
Definition copyInputFile (p out : path) : act unit := fun fs =>
  let target := out ++ [filename p] in
  if there fs target then (fs, Exit (-1)) else copy_file p target fs.

(** Input, src/input.hpp:12-16 *)
Record input := mkI { i_settings : @settings F64; i_particles : list particle; i_start : f64 }.

Section Load.
Variable parse : list ascii -> option node.
Variable as_int : list ascii -> option Z.
Variable as_dbl : list ascii -> option f64.
Variable as_bool : list ascii -> option bool.
Variable cell_int : list ascii -> option Z.
Variable cell_dbl : list ascii -> option f64.

(** YAML::LoadFile *)
Definition yaml_file (fs : filesystem) (p : path) : outcome node :=
  match fs p with
  | Some (File b) => match parse b with Some y => Ok y | None => Throw end
  | _ => Throw
  end.

(** Loader::getParticlesLoader, src/loader.cpp:40-52, and the load function of the three
    loaders on the file: a prof or vtu file that cannot be opened ends the program
    (prof.cpp:14-19, vtu.cpp:17-21), for a csv file csv.h throws *)
Definition loadParticles (dbg : bool) (rho : f64) (fs : filesystem) (p : path) : outcome (f64 * list particle) :=
  let ext := extension p in
  if text_eqb ext (lit ".csv") then
    match fs p with Some e => csv_load cell_int cell_dbl dbg rho (bytes_of e) | None => Throw end
  else if text_eqb ext (lit ".prof") then
    match fs p with Some e => prof_load dbg rho (bytes_of e) | None => Exit (-1) end
  else if text_eqb ext (lit ".vtu") then
    match fs p with Some e => vtu_load dbg rho (bytes_of e) | None => Exit (-1) end
  else Exit (-1).

(** Loader::load, src/loader.cpp:17-32 *)
Definition load (dbg : bool) (setting out : path) : act input := fun fs =>
  (y <~ ret (yaml_file fs setting) ;;
   '(s, pp, _) <~ ret (loadSettingYaml as_int as_dbl as_bool dbg (parent setting) y) ;;
   '(t, ps) <~ ret (loadParticles dbg (s_rho0 s) fs pp) ;;
   _ <~ copyInputFile setting out ;;
   _ <~ copyInputFile pp out ;;
   ret (Ok (mkI s ps t))) fs.
End Load.
