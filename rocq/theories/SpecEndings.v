(** * Vocabulary of C80: the other ways in which a run can end *)
From Coq Require Import String.
From Verif Require Export SpecInventory.
Open Scope list_scope.
Open Scope Z_scope.
#[local] Remove Hints Rnum : typeclass_instances.

(** the text [pat] occurs in the file *)
Definition occurs (pat file : list ascii) : Prop := exists a b, file = a ++ pat ++ b.
Definition formats : list (list ascii) := map lit [".csv"; ".prof"; ".vtu"]%string.
(** The program stops with exit(-1): an argument does not exist; the particle file does
    not exist, or has another format or binary data; a copy exists already, or the two
    copies would have the same name; the pressure method is unknown; the solver gives up;
    a directory is in the place of an output file. *)
Definition refused (S : @solver F64) (fs : filesystem) (setting out pp : path) (s : @settings F64) : Prop :=
  (fs pp = None /\ extension pp <> lit ".csv") \/ ~ In (extension pp) formats \/
  (extension pp = lit ".vtu" /\ exists e, fs pp = Some e /\ occurs (lit "<AppendedData") (bytes_of e)) \/
  fs (out ++ [filename setting]) <> None \/ fs (out ++ [filename pp]) <> None \/ filename pp = filename setting \/
  (s_method s <> "Implicit" /\ s_method s <> "Explicit")%string \/
  (s_method s = "Implicit"%string /\ exists n ts b, S n ts b = None) \/
  exists kind k, In kind kinds /\ 0 <= k /\ fs (outputPath out kind k) = Some Folder.
(** an exception ends the program: unreadable particles, a directory in the place of the
    particle file, a file in the place of an output directory *)
Definition thrown (fs : filesystem) (setting out pp : path) (loaded : outcome (f64 * list Files.particle)) : Prop :=
  loaded = Throw \/ fs pp = Some Folder \/
  exists kind, In kind kinds /\ ((exists b, fs (out ++ [lit kind]) = Some (File b)) \/ filename setting = lit kind).
(** after [fuel] steps the time has not reached the finish time *)
Definition goes_on (S : @solver F64) (fuel : nat) (t : f64) (s : @settings F64) (m : @mps F64) : Prop :=
  exists mk, steps S fuel m mk /\ @nlt F64 (time_at t (s_dt s) fuel) (s_endTime s) = true.

(** the settings violate an assertion of the reference values: the dimension is not 2 or 3,
    a radius of influence is not larger than the particle distance, or a point of the
    lattice is computed to be at the origin (underflow) or nowhere (NaN) *)
Definition lattice_point (dim : Z) (c : Z * Z * Z) : Prop :=
  let '(a, b, e) := c in c <> (0, 0, 0) /\ (dim = 2 -> e = 0) /\ -4 <= a <= 4 /\ -4 <= b <= 4 /\ -4 <= e <= 4.
Definition bad_lattice (s : @settings F64) : Prop :=
  (s_dim s <> 2 /\ s_dim s <> 3) \/
  (exists re, In re [s_reN s; s_reG s; s_reL s] /\ @nlt F64 (s_l0 s) re = false) \/
  exists a b e, lattice_point (s_dim s) (a, b, e) /\
    let x := @nmul F64 (s_l0 s) (@nofZ F64 a) in let y := @nmul F64 (s_l0 s) (@nofZ F64 b) in let z := @nmul F64 (s_l0 s) (@nofZ F64 e) in
    @nlt F64 (@nofZ F64 0) (@nsqrt F64 (@nadd F64 (@nadd F64 (@nmul F64 x x) (@nmul F64 y y)) (@nmul F64 z z))) = false.
(** in the step that begins with [m], two particles are in one place, as far as the
    distance computed from their positions tells: at the start, after the prediction, or
    after the collisions *)
Definition in_one_place (ps : list Files.particle) : Prop :=
  exists i j p q, i <> j /\ nth_error ps i = Some p /\ nth_error ps j = Some q /\ p_type p <> Ghost /\ p_type q <> Ghost /\
    @vnorm F64 (@vsub F64 (p_pos q) (p_pos p)) = B754_zero false.
Definition meets_pair (m : @mps F64) : Prop :=
  exists ns ps, ((ns = m_ns m /\ ps = m_ps m) \/ stepMove m = Ok (ns, ps) \/ exists ns0 ps0, stepMove m = Ok (ns0, ps0) /\ stepCollide m ns0 ps0 = Ok (ns, ps)) /\ in_one_place ps.
(** in a step before the finish time *)
Definition in_one_place_later (S : @solver F64) (t : f64) (s : @settings F64) (m : @mps F64) : Prop :=
  exists k mk, steps S k m mk /\ @nlt F64 (time_at t (s_dt s) k) (s_endTime s) = true /\ meets_pair mk.
